(** SfvFacts: SFV files. *)
From Coq Require Import Permutation Sorted.
From Verif Require Import Base BaseFacts VolName VolSpec VolFacts Sfv SfvSpec.

(** ** Stripping *)
Lemma drop_while_split {A} f (l : list A) : exists a, l = a ++ drop_while f l /\ Forall (fun x => f x = true) a.
Proof.
  induction l as [|x l (a & E & H)]; [exists []; auto|]. cbn [drop_while]. destruct (f x) eqn:F.
  - exists (x :: a). split; [cbn [app]; congruence|auto].
  - exists []. auto.
Qed.
Lemma drop_while_head {A} f (l : list A) x r : drop_while f l = x :: r -> f x = false.
Proof. induction l as [|y l IH]; [discriminate|]. cbn [drop_while]. destruct (f y) eqn:F; [auto|congruence]. Qed.
Lemma drop_while_app {A} f (a b : list A) : Forall (fun x => f x = true) a -> drop_while f (a ++ b) = drop_while f b.
Proof. induction 1 as [|x a H _ IH]; [reflexivity|]. cbn [app drop_while]. now rewrite H. Qed.
Lemma drop_while_stop {A} f x (l : list A) : f x = false -> drop_while f (x :: l) = x :: l.
Proof. cbn [drop_while]. now intros ->. Qed.
Lemma drop_while_all {A} f (l : list A) : Forall (fun x => f x = true) l -> drop_while f l = [].
Proof. intros H. rewrite <- (app_nil_r l). now rewrite drop_while_app. Qed.
Lemma rdrop_split {A} f (l : list A) : exists b, l = rdrop_while f l ++ b /\ Forall (fun x => f x = true) b.
Proof.
  destruct (drop_while_split f (rev l)) as (a & E & H). exists (rev a). unfold rdrop_while. split.
  - rewrite <- rev_app_distr, <- E. now rewrite rev_involutive.
  - now apply Forall_rev.
Qed.
Lemma rdrop_last {A} f (l : list A) d : rdrop_while f l <> [] -> f (last (rdrop_while f l) d) = false.
Proof.
  unfold rdrop_while. intros H. destruct (drop_while f (rev l)) as [|x r] eqn:E; [now destruct H|]. cbn [rev]. rewrite last_last. now apply (drop_while_head _ (rev l) x r).
Qed.
Lemma rdrop_app {A} f (a b : list A) : Forall (fun x => f x = true) b -> rdrop_while f (a ++ b) = rdrop_while f a.
Proof. intros H. unfold rdrop_while. rewrite rev_app_distr, drop_while_app by now apply Forall_rev. reflexivity. Qed.
Lemma rdrop_stop {A} f (a : list A) x : f x = false -> rdrop_while f (a ++ [x]) = a ++ [x].
Proof. intros H. unfold rdrop_while. rewrite rev_app_distr. cbn [rev app]. rewrite drop_while_stop by exact H. cbn [rev]. now rewrite rev_involutive. Qed.
Lemma last_ex {A} (l : list A) d : l <> [] -> exists l', l = l' ++ [last l d].
Proof. intros H. exists (removelast l). now apply app_removelast_last. Qed.
Lemma rdrop_last_stop {A} f (l : list A) d : f (last l d) = false -> l <> [] -> rdrop_while f l = l.
Proof. intros H Hl. destruct (last_ex l d Hl) as [l' E]. rewrite E. apply rdrop_stop. exact H. Qed.
Lemma rdrop_map {A B} (g : A -> B) f f' (l : list A) : (forall x, f x = f' (g x)) -> map g (rdrop_while f l) = rdrop_while f' (map g l).
Proof.
  intros H. assert (D : forall m, map g (drop_while f m) = drop_while f' (map g m)).
  { induction m as [|x m IH]; [reflexivity|]. cbn [map drop_while]. rewrite <- H. now destruct (f x). }
  unfold rdrop_while. rewrite map_rev, D, map_rev. reflexivity.
Qed.

Lemma strip_trimmed f (P : N -> Prop) t : (forall c, f c = true <-> P c) -> trimmed P t (strip f t).
Proof.
  intros HP. assert (F : forall l, Forall (fun x => f x = true) l -> Forall P l) by (intros l H; eapply Forall_impl; [|exact H]; intros c; apply HP).
  unfold strip. destruct (drop_while_split f t) as (a & Ea & Ha). destruct (rdrop_split f (drop_while f t)) as (b & Eb & Hb).
  set (n := rdrop_while f (drop_while f t)) in *. exists a, b. split; [congruence|]. split; [auto|]. split; [auto|].
  destruct n as [|x n'] eqn:En; [now left|right]. split.
  - cbn [hd]. rewrite <- HP. intros Hx. assert (f x = false); [|congruence]. cbn [app] in Eb. eapply drop_while_head. exact Eb.
  - rewrite <- HP. intros Hx. assert (f (last (x :: n') 0) = false); [|congruence]. rewrite <- En. apply rdrop_last. fold n. rewrite En. discriminate.
Qed.
Lemma trimmed_strip f (P : N -> Prop) t n : (forall c, f c = true <-> P c) -> trimmed P t n -> strip f t = n.
Proof.
  intros HP (a & b & -> & Ha & Hb & Hn). assert (F : forall l, Forall P l -> Forall (fun x => f x = true) l) by (intros l H; eapply Forall_impl; [|exact H]; intros c; apply HP).
  unfold strip. rewrite drop_while_app by auto. destruct n as [|x n].
  - cbn [app]. rewrite drop_while_all by auto. reflexivity.
  - destruct Hn as [|[H1 H2]]; [discriminate|]. cbn [hd] in H1. assert (f x = false) by (destruct (f x) eqn:E; [apply HP in E; contradiction|reflexivity]).
    cbn [app]. rewrite drop_while_stop by assumption. change (x :: n ++ b) with ((x :: n) ++ b). rewrite rdrop_app by auto.
    apply (rdrop_last_stop f (x :: n) 0); [|discriminate]. destruct (f (last (x :: n) 0)) eqn:E; [apply HP in E; contradiction|reflexivity].
Qed.

(** ** Lines *)
Lemma lines_ok l : lines (latin1 l) (map latin1 (split_lf (map (fun b => if b2n b =? 13 then x0a else b) l))).
Proof.
  induction l as [|b l IH]; [constructor; constructor|]. cbn [map split_lf latin1]. fold (latin1 l).
  set (f := fun b => if b2n b =? 13 then x0a else b) in *.
  destruct (split_lf (map f l)) as [|w ws] eqn:E; [exfalso; now inversion IH|].
  destruct (N.eqb_spec (b2n b) 13) as [H13|H13]; [|destruct (N.eqb_spec (b2n b) 10) as [H10|H10]].
  - change (b2n x0a =? 10) with true. cbv iota. cbn [map latin1]. apply (ln_cons [] (b2n b)); [constructor|right; exact H13|exact IH].
  - cbn [map latin1]. apply (ln_cons [] (b2n b)); [constructor|left; exact H10|exact IH].
  - cbn [map latin1] in *. fold (latin1 w) in *. inversion IH as [w' Hw|w' c t ls Hw Hc Ht E1 E2]; subst.
    + constructor. constructor; [intros []; contradiction|assumption].
    + apply (ln_cons (b2n b :: latin1 w) c t); [|assumption|assumption]. constructor; [intros []; contradiction|assumption].
Qed.
Lemma lines_fun t ls : lines t ls -> forall ls', lines t ls' -> ls = ls'.
Proof.
  assert (S : forall w c t w' c' t', Forall (fun c => ~ line_break c) w -> line_break c -> Forall (fun c => ~ line_break c) w' -> line_break c' ->
    w ++ c :: t = w' ++ c' :: t' -> w = w' /\ t = t').
  { induction w as [|x w IHw]; intros c t0 [|x' w'] c' t' H1 H2 H3 H4 E; cbn [app] in E; injection E as Ex E; subst.
    - auto.
    - inversion H3. contradiction.
    - inversion H1. contradiction.
    - inversion H1; subst. inversion H3; subst. destruct (IHw c t0 w' c' t') as [-> ->]; auto. }
  assert (T : forall w c t', Forall (fun c => ~ line_break c) (w ++ c :: t') -> ~ line_break c).
  { intros w c t' H. apply Forall_app in H as [_ H]. now inversion H. }
  induction 1 as [w Hw|w c t ls Hw Hc H IH]; intros ls' H'; inversion H'; subst.
  - reflexivity.
  - exfalso. eapply T; eassumption.
  - exfalso. eapply T; eassumption.
  - match goal with X : _ ++ _ :: _ = _ ++ _ :: _ |- _ => apply S in X; try assumption; destruct X as [-> ->] end. f_equal. auto.
Qed.

(** ** One line *)
Lemma bspace_iff b : bspace b = true <-> ascii_white (b2n b).
Proof. unfold bspace, ascii_white. lia. Qed.
Definition aspace (c : N) : bool := ((9 <=? c) && (c <=? 13)) || (c =? 32).
Lemma aspace_iff c : aspace c = true <-> ascii_white c.
Proof. unfold aspace, ascii_white. lia. Qed.
Lemma uspace_iff c : uspace c = true <-> white c.
Proof. unfold uspace, white, ascii_white. lia. Qed.
Lemma untabbed_ok t : untabbed t (expand_tabs t).
Proof.
  induction t as [|c t IH]; [constructor|]. unfold expand_tabs. cbn [map concat]. fold (expand_tabs t).
  destruct (N.eqb_spec c 9) as [->|H]; cbn [app]; now constructor.
Qed.
Lemma untabbed_fun t u : untabbed t u -> u = expand_tabs t.
Proof.
  induction 1 as [|t u H IH|c t u Hc H IH]; [reflexivity| |]; unfold expand_tabs; cbn [map concat]; fold (expand_tabs t).
  - cbn [app]. change (9 =? 9) with true. cbn [app]. congruence.
  - destruct (N.eqb_spec c 9); [contradiction|]. cbn [app]. congruence.
Qed.
Lemma expand_app a b : expand_tabs (a ++ b) = expand_tabs a ++ expand_tabs b.
Proof. unfold expand_tabs. now rewrite map_app, concat_app. Qed.
Lemma expand_notab t : ~ In 9 t -> expand_tabs t = t.
Proof.
  induction t as [|c t IH]; intros H; [reflexivity|]. unfold expand_tabs. cbn [map concat]. fold (expand_tabs t). rewrite IH by (intros X; apply H; now right).
  destruct (N.eqb_spec c 9) as [->|]; [exfalso; apply H; now left|reflexivity].
Qed.
Lemma cut_first_app c a r : ~ In c a -> cut_first c (a ++ c :: r) = Some (a, r).
Proof.
  induction a as [|x a IH]; intros H; cbn [app cut_first]; [now rewrite N.eqb_refl|]. destruct (N.eqb_spec x c) as [->|]; [exfalso; apply H; now left|].
  rewrite IH by (intros X; apply H; now right). reflexivity.
Qed.
Lemma cut_first_some c r a b : cut_first c r = Some (a, b) -> r = a ++ c :: b /\ ~ In c a.
Proof.
  revert a b. induction r as [|x r IH]; intros a b H; [discriminate|]. cbn [cut_first] in H. destruct (N.eqb_spec x c) as [->|Hx].
  - injection H as <- <-. split; [reflexivity|intros []].
  - destruct (cut_first c r) as [[a' b']|] eqn:E; [|discriminate]. injection H as <- <-. destruct (IH _ _ eq_refl) as [-> Hn]. split; [reflexivity|].
    intros [X|X]; [contradiction|now apply Hn].
Qed.
Lemma cut_first_none c r : cut_first c r = None -> ~ In c r.
Proof.
  induction r as [|x r IH]; intros H; [intros []|]. cbn [cut_first] in H. destruct (N.eqb_spec x c) as [->|Hx]; [discriminate|].
  destruct (cut_first c r) as [[? ?]|]; [discriminate|]. intros [X|X]; [contradiction|]. now apply IH.
Qed.
Lemma cut_last_app c a r : ~ In c r -> cut_last c (a ++ c :: r) = Ok (a, r).
Proof.
  intros H. unfold cut_last. rewrite rev_app_distr. cbn [rev]. rewrite <- app_assoc. cbn [app]. rewrite cut_first_app by now rewrite <- in_rev. now rewrite !rev_involutive.
Qed.
Lemma cut_last_ok c t a r : cut_last c t = Ok (a, r) -> t = a ++ c :: r /\ ~ In c r.
Proof.
  unfold cut_last. destruct (cut_first c (rev t)) as [[x y]|] eqn:E; [|discriminate]. intros H. injection H as <- <-. apply cut_first_some in E as [E Hn]. split.
  - rewrite <- (rev_involutive t), E, rev_app_distr. cbn [rev]. now rewrite <- app_assoc.
  - now rewrite <- in_rev.
Qed.
Lemma crc_char_iff c : crc_char c = true <-> hex_char c.
Proof. unfold crc_char, hex_char, is_digit, digit, lower1. destruct ((65 <=? c) && (c <=? 90)) eqn:E; lia. Qed.
Lemma forallb_hex d : forallb crc_char d = true <-> Forall hex_char d.
Proof. rewrite forallb_forall, Forall_forall. split; intros H x Hx; apply crc_char_iff; auto. Qed.
Lemma hex_not_white c : hex_char c -> ~ white c.
Proof. unfold hex_char, white, ascii_white, is_digit. lia. Qed.

(** cutting the expanded text at its last blank, in terms of the text itself *)
Lemma expand_cut t a r : expand_tabs t = a ++ 32 :: r -> ~ In 32 r -> exists pre sep, t = pre ++ sep :: r /\ (sep = 32 \/ sep = 9) /\ ~ In 9 r /\
  (sep = 32 -> a = expand_tabs pre) /\ (sep = 9 -> a = expand_tabs pre ++ [32; 32; 32]).
Proof.
  revert a r. induction t as [|c t IH] using rev_ind; intros a r E Hr; [destruct a; discriminate|].
  rewrite expand_app in E. unfold expand_tabs at 2 in E. cbn [map concat] in E. rewrite app_nil_r in E.
  destruct (N.eqb_spec c 9) as [->|Hc].
  - (* a tab at the end *)
    destruct r as [|x r] using rev_ind.
    + exists t, 9. split; [reflexivity|]. split; [now right|]. split; [intros []|]. split; [discriminate|]. intros _.
      change [32; 32; 32; 32] with ([32; 32; 32] ++ [32]) in E. rewrite app_assoc in E. now apply app_inj_tail in E as [<- _].
    + exfalso. apply Hr. rewrite in_app_iff. right. left. change (a ++ 32 :: r ++ [x]) with (a ++ (32 :: r) ++ [x]) in E. rewrite (app_assoc a) in E.
      change [32; 32; 32; 32] with ([32; 32; 32] ++ [32]) in E. rewrite app_assoc in E. now apply app_inj_tail in E as [_ <-].
  - destruct r as [|x r _] using rev_ind.
    + apply app_inj_tail in E as [<- ->]. exists t, 32. split; [reflexivity|]. split; [now left|]. split; [intros []|]. split; [reflexivity|discriminate].
    + change (a ++ 32 :: r ++ [x]) with (a ++ (32 :: r) ++ [x]) in E. rewrite (app_assoc a) in E. apply app_inj_tail in E as [E <-].
      destruct (IH a r E) as (pre & sep & -> & Hs & H9 & Ha & Hb); [intros X; apply Hr; rewrite in_app_iff; now left|].
      exists pre, sep. split; [now rewrite <- app_assoc|]. split; [exact Hs|]. split; [|auto]. rewrite in_app_iff. intros [X|[X|[]]]; [now apply H9|congruence].
Qed.

Lemma trim_more (f : N -> bool) t n : strip f (t ++ n) = strip f t \/ ~ Forall (fun x => f x = true) n.
Proof.
  destruct (Forall_dec (fun x => f x = true) (fun x => bool_dec (f x) true) n) as [H|H]; [left|now right].
  unfold strip. destruct (drop_while_split f t) as (a & E & Ha). destruct (drop_while f t) as [|x r] eqn:D.
  - rewrite app_nil_r in E. rewrite E. rewrite drop_while_all by now apply Forall_app. reflexivity.
  - rewrite E, <- app_assoc, drop_while_app by exact Ha. assert (f x = false) by (eapply drop_while_head; exact D). cbn [app]. rewrite drop_while_stop by assumption. 
    change (x :: r ++ n) with ((x :: r) ++ n). now rewrite rdrop_app.
Qed.
Lemma strip_more (f : N -> bool) t n : Forall (fun x => f x = true) n -> strip f (t ++ n) = strip f t.
Proof. intros H. destruct (trim_more f t n); tauto. Qed.

(** the entry of a line, after its white space at the end is gone *)
Lemma entry_sound b e t : parse_entry b = Ok e -> Forall ascii_white t -> entry_line (latin1 b ++ t) (e_name e) (e_crc e).
Proof.
  unfold parse_entry. intros H Ht. destruct (cut_last 32 (expand_tabs (latin1 b))) as [[a r]|] eqn:E; [|discriminate]. cbn [bind fst snd] in H.
  apply cut_last_ok in E as [E Hr]. destruct (expand_cut _ _ _ E Hr) as (pre & sep & El & Hs & H9 & Ha & Hb).
  unfold sfv_entry in H. destruct (forallb _ _ && _ && _) eqn:C; [|discriminate]. injection H as <-. cbn [e_name e_crc].
  apply andb_true_iff in C as [C C3]. apply andb_true_iff in C as [C1 C2]. apply forallb_hex in C1.
  destruct (drop_while_split uspace r) as (w & Ew & Hw). set (d := drop_while uspace r) in *.
  exists pre, sep, w, d, t, (expand_tabs pre), (strip uspace (expand_tabs pre)). split.
  { rewrite El, Ew. cbn [app]. rewrite <- !app_assoc. cbn [app]. now rewrite <- app_assoc. }
  split; [exact Hs|]. split.
  { rewrite Forall_forall in *. intros c Hc. split; [apply uspace_iff; auto|]. split; intros ->.
    - apply Hr. rewrite Ew, in_app_iff. now left.
    - apply H9. rewrite Ew, in_app_iff. now left. }
  split; [exact C1|]. split; [rewrite lenN_length in C2, C3; lia|]. split; [exact Ht|]. split; [apply untabbed_ok|]. split; [apply strip_trimmed, uspace_iff|].
  assert (Es : strip uspace a = strip uspace (expand_tabs pre)).
  { destruct Hs as [Hs|Hs]; [now rewrite (Ha Hs)|]. rewrite (Hb Hs). apply strip_more. repeat constructor. }
  rewrite Es. split.
  - apply strip_trimmed. intros c. rewrite N.eqb_eq. reflexivity.
  - f_equal. unfold repN. f_equal. rewrite lenN_length. lia.
Qed.
Lemma trail_eq (P : N -> Prop) a t b u : Forall P t -> Forall P u -> (a = [] \/ ~ P (last a 0)) -> (b = [] \/ ~ P (last b 0)) -> a ++ t = b ++ u -> a = b.
Proof.
  intros Ht Hu Ha Hb E. assert (L : forall x y z v : text, Forall P v -> (x = [] \/ ~ P (last x 0)) -> x ++ z = y ++ v -> (length x <= length y)%nat).
  { intros x y z v Hv Hx Ex. destruct (Nat.le_gt_cases (length x) (length y)) as [|Hl]; [assumption|exfalso].
    assert (Hne : x <> []) by (intros ->; cbn in Hl; lia). destruct Hx as [|Hx]; [contradiction|]. apply Hx. destruct (last_ex x 0 Hne) as [x' E'].
    rewrite E' in Ex. rewrite <- app_assoc in Ex. cbn [app] in Ex. rewrite Forall_forall in Hv. apply Hv.
    assert (Hly : (length y <= length x')%nat) by (rewrite E', app_length in Hl; cbn in Hl; lia).
    assert (Hd : skipn (length y) x' ++ last x 0 :: z = v).
    { assert (S : skipn (length y) (x' ++ last x 0 :: z) = skipn (length y) (y ++ v)) by now rewrite Ex.
      rewrite (skipn_app _ y), skipn_all, Nat.sub_diag in S. cbn [app skipn] in S. rewrite skipn_app in S. replace (length y - length x')%nat with 0%nat in S by lia. exact S. }
    rewrite <- Hd, in_app_iff. right. now left. }
  assert (H1 := L a b t u Hu Ha E). assert (H2 := L b a u t Ht Hb (eq_sym E)).
  apply (f_equal (firstn (length a))) in E. rewrite firstn_app, Nat.sub_diag, firstn_all in E. cbn [firstn] in E. rewrite app_nil_r in E.
  replace (length a) with (length b) in E by lia. rewrite firstn_app, Nat.sub_diag, firstn_all in E. cbn [firstn] in E. now rewrite app_nil_r in E.
Qed.
Lemma entry_complete b n c t : entry_line (latin1 b ++ t) n c -> Forall ascii_white t -> (latin1 b = [] \/ ~ ascii_white (last (latin1 b) 0)) ->
  parse_entry b = Ok (mkSfv n c).
Proof.
  intros (pre & sep & w & d & trail & u & m & E & Hs & Hw & Hd & Hl & Htr & Hu & Hm & Hn & ->) Ht Hb.
  assert (Hd0 : d <> []) by (intros ->; cbn in Hl; lia).
  assert (El : latin1 b = pre ++ [sep] ++ w ++ d).
  { apply (trail_eq ascii_white _ t _ trail); [exact Ht|exact Htr|exact Hb| |rewrite <- !app_assoc; exact E].
    right. destruct (last_ex d 0 Hd0) as [d' Ed]. rewrite Ed, !app_assoc, last_last. rewrite Forall_forall in Hd. intros X. apply (hex_not_white (last d 0)); [|now left].
    apply Hd. rewrite Ed at 2. rewrite in_app_iff. right. now left. }
  unfold parse_entry. rewrite El.
  assert (N9 : ~ In 9 (w ++ d)).
  { rewrite in_app_iff. rewrite Forall_forall in Hw, Hd. intros [X|X]; [now apply Hw in X|]. apply Hd in X. unfold hex_char, is_digit in X. lia. }
  assert (N32 : ~ In 32 (w ++ d)).
  { rewrite in_app_iff. rewrite Forall_forall in Hw, Hd. intros [X|X]; [now apply Hw in X|]. apply Hd in X. unfold hex_char, is_digit in X. lia. }
  assert (Ex : exists a, expand_tabs (pre ++ [sep] ++ w ++ d) = a ++ 32 :: w ++ d /\ strip uspace a = m).
  { rewrite expand_app, (expand_app [sep]), (expand_notab _ N9). apply untabbed_fun in Hu. subst u.
    destruct Hs as [->| ->].
    - exists (expand_tabs pre). split; [reflexivity|]. now apply (trimmed_strip uspace white _ _ uspace_iff).
    - exists (expand_tabs pre ++ [32; 32; 32]). split; [rewrite <- !app_assoc; reflexivity|]. rewrite strip_more by repeat constructor. now apply (trimmed_strip uspace white _ _ uspace_iff). }
  destruct Ex as (a & -> & Ea). rewrite (cut_last_app 32 a (w ++ d) N32). cbn [bind fst snd]. rewrite Ea.
  assert (Dw : drop_while uspace (w ++ d) = d).
  { rewrite drop_while_app. - destruct d as [|x d]; [contradiction|]. apply drop_while_stop. inversion Hd; subst. destruct (uspace x) eqn:X; [|reflexivity]. apply uspace_iff in X. exfalso. now apply (hex_not_white x).
    - eapply Forall_impl; [|exact Hw]. intros x [X _]. now apply uspace_iff. }
  rewrite Dw. unfold sfv_entry. rewrite (proj2 (forallb_hex d) Hd), lenN_length. cbn [andb].
  replace (1 <=? N.of_nat (length d)) with true by lia. replace (N.of_nat (length d) <=? 8) with true by lia. cbn [andb]. f_equal. f_equal.
  - apply (trimmed_strip _ (eq 34)); [|exact Hn]. intros x. apply N.eqb_eq.
  - unfold repN. f_equal. f_equal. lia.
Qed.
Lemma parse_entry_err b e : parse_entry b = Err e -> e = ValueError.
Proof.
  unfold parse_entry, cut_last, sfv_entry. destruct (cut_first _ _) as [[? ?]|]; cbn [bind]; [|congruence]. destruct (_ && _ && _); congruence.
Qed.

Lemma map_last {A B} (g : A -> B) (l : list A) d : last (map g l) (g d) = g (last l d).
Proof. induction l as [|x [|y l] IH]; [reflexivity|reflexivity|]. exact IH. Qed.
Lemma account_ok ls : exists es cs rs, parse_lines ls = Ok (es, cs, rs) /\ account (map latin1 ls) es cs rs.
Proof.
  induction ls as [|l ls (es & cs & rs & E & A)]; [exists [], [], []; split; [reflexivity|constructor]|].
  cbn [parse_lines map]. rewrite E. cbn [bind].
  destruct (drop_while_split bspace l) as (a & Ea & Ha).
  assert (Ha' : Forall ascii_white (latin1 a)).
  { unfold latin1. rewrite Forall_map. eapply Forall_impl; [|exact Ha]. intros x. apply bspace_iff. }
  destruct (drop_while bspace l) as [|x r] eqn:D.
  - (* blank *)
    unfold strip. rewrite D. cbn [rdrop_while rev drop_while]. exists es, cs, rs. split; [reflexivity|]. apply ac_blank; [|exact A]. rewrite app_nil_r in Ea. now subst l.
  - assert (Hx : bspace x = false) by (eapply drop_while_head; exact D).
    assert (Ns : strip bspace l <> []).
    { unfold strip. rewrite D. intros X. destruct (rdrop_split bspace (x :: r)) as (b & Eb & Hb). rewrite X in Eb. cbn [app] in Eb. subst b. inversion Hb. congruence. }
    destruct (strip bspace l) as [|y yl] eqn:Es; [congruence|]. clear Es Ns.
    assert (Nb : ~ blank_line (latin1 l)).
    { intros X. unfold blank_line in X. rewrite Ea in X. unfold latin1 in X. rewrite map_app, Forall_app in X. destruct X as [_ X]. inversion X; subst. apply bspace_iff in H1. congruence. }
    destruct (Byte.byte_eq_dec x x3b) as [->|Hs].
    + exists es, (latin1 l :: cs), rs. split; [reflexivity|]. apply ac_comment; [|exact A]. exists (latin1 a), (latin1 r). split; [|exact Ha'].
      rewrite Ea. unfold latin1. rewrite map_app. reflexivity.
    + assert (Nc : ~ comment_line (latin1 l)).
      { intros (a' & r' & E' & H'). rewrite Ea in E'. unfold latin1 in E'. rewrite map_app in E'. fold (latin1 a) in E'. cbn [map] in E'.
        assert (Q : latin1 a = a' /\ b2n x = 59).
        { assert (Hxx : ~ ascii_white (b2n x)) by (rewrite <- bspace_iff; congruence). assert (H59 : ~ ascii_white 59) by (unfold ascii_white; lia).
          revert E' Ha' H' Hxx H59. generalize (latin1 a) (b2n x) (map b2n r). intros A0. revert a'. induction A0 as [|p A0 IHA]; intros [|q a'] bx mr E' H1 H2 H3 H4; cbn [app] in E'.
          - injection E' as -> _. auto.
          - injection E' as -> _. inversion H2. contradiction.
          - injection E' as -> _. inversion H1. contradiction.
          - injection E' as -> E'. inversion H1; subst. inversion H2; subst. destruct (IHA a' bx mr E') as [-> ->]; auto. }
        apply Hs. destruct Q as [_ Q]. change 59 with (b2n x3b) in Q. now apply b2n_inj in Q. }
      assert (Hgo : forall T (u v : T), (match x with x3b => u | _ => v end) = v).
      { intros T u v. destruct x; try reflexivity. congruence. }
      rewrite Hgo.
      destruct (rdrop_split bspace l) as (b & Eb & Hb). set (l0 := rdrop_while bspace l) in *.
      assert (Hb' : Forall ascii_white (latin1 b)).
      { unfold latin1. rewrite Forall_map. eapply Forall_impl; [|exact Hb]. intros z. apply bspace_iff. }
      assert (El : latin1 l = latin1 l0 ++ latin1 b) by (rewrite Eb at 1; unfold latin1; apply map_app).
      assert (N0 : l0 <> []).
      { intros X. rewrite X in El. cbn [latin1 map app] in El. apply Nb. unfold blank_line. rewrite El. exact Hb'. }
      assert (Hlast : ~ ascii_white (last (latin1 l0) 0)).
      { unfold latin1. rewrite (map_last b2n l0 x00 : last (map b2n l0) 0 = _). rewrite <- bspace_iff. unfold l0. rewrite rdrop_last by exact N0. discriminate. }
      destruct (parse_entry l0) as [e|e] eqn:P.
      * exists (e :: es), cs, rs. split; [reflexivity|]. destruct e as [n c]. apply ac_entry; [exact Nc| |exact A]. rewrite El.
        apply (entry_sound l0 (mkSfv n c)); assumption.
      * rewrite (parse_entry_err _ _ P). exists es, cs, (latin1 l0 :: rs). split; [reflexivity|].
        apply (ac_error _ _ (latin1 b)); try assumption. intros n c X. rewrite El in X. apply entry_complete in X; [congruence|exact Hb'|now right].
Qed.

Theorem sfv_thm data : exists es cs rs ls, parse_sfv_data data = Ok (es, cs, rs) /\ lines (map b2n data) ls /\ account ls es cs rs.
Proof.
  unfold parse_sfv_data. destruct (account_ok (split_lf (map (fun b => if b2n b =? 13 then x0a else b) data))) as (es & cs & rs & E & A).
  exists es, cs, rs. eexists. split; [exact E|]. split; [apply lines_ok|exact A].
Qed.

(** ** Rows written one by one *)
Lemma latin1_undo t : Forall (fun c => c < 256) t -> latin1 (undo t) = t.
Proof.
  unfold latin1, undo. rewrite map_map. intros H. rewrite <- (map_id t) at 2. apply map_ext_in. intros c Hc. rewrite Forall_forall in H. now apply b2n_n2b_small, H.
Qed.
Definition cr2lf (b : byte) : byte := if b2n b =? 13 then x0a else b.
Lemma split_lf_line w r : Forall (fun b => b2n b <> 10) w -> split_lf (w ++ x0a :: r) = w :: split_lf r.
Proof.
  induction 1 as [|b w Hb H IH].
  - cbn [app split_lf]. destruct (split_lf r) as [|x y] eqn:E; [|reflexivity]. destruct r as [|b r]; [discriminate|]. cbn [split_lf] in E. destruct (split_lf r); [discriminate|]. now destruct (b2n b =? 10).
  - cbn [app split_lf]. rewrite IH. destruct (N.eqb_spec (b2n b) 10); [contradiction|reflexivity].
Qed.
Definition row (e : sfv) : text := e_name e ++ [32] ++ e_crc e.
Lemma hex_lt c : hex_char c -> c < 256 /\ c <> 9 /\ c <> 10 /\ c <> 13 /\ c <> 32.
Proof. unfold hex_char, is_digit. lia. Qed.
Lemma row_chars e : row_ok e -> Forall (fun c => c < 256 /\ c <> 9 /\ c <> 10 /\ c <> 13) (row e).
Proof.
  intros [(_ & Hn & _) (_ & Hc)]. unfold row. rewrite !Forall_app. split; [exact Hn|]. split; [repeat constructor; lia|].
  eapply Forall_impl; [|exact Hc]. intros c X. apply hex_lt in X. lia.
Qed.
Lemma last_app {A} (a b : list A) d : b <> [] -> last (a ++ b) d = last b d.
Proof. intros H. destruct (last_ex b d H) as [b' E]. rewrite E, app_assoc, !last_last. reflexivity. Qed.
Lemma hd_app {A} (a b : list A) d : a <> [] -> hd d (a ++ b) = hd d a.
Proof. now destruct a. Qed.
Lemma row_entry e : row_ok e -> entry_line (row e) (e_name e) (e_crc e).
Proof.
  intros [(N0 & Hn & H1 & H2 & H3 & H4 & H5) (Hl & Hc)]. exists (e_name e), 32, [], (e_crc e), [], (e_name e), (e_name e).
  split; [unfold row; cbn [app]; now rewrite app_nil_r|]. split; [now left|]. split; [constructor|]. split; [exact Hc|]. split; [lia|]. split; [constructor|]. split.
  { replace (e_name e) with (expand_tabs (e_name e)) at 2; [apply untabbed_ok|]. apply expand_notab. rewrite Forall_forall in Hn. intros X. destruct (Hn 9 X) as (_ & X9 & _). congruence. }
  assert (T : forall P : N -> Prop, ~ P (hd 0 (e_name e)) -> ~ P (last (e_name e) 0) -> trimmed P (e_name e) (e_name e)).
  { intros P A B. exists [], []. rewrite app_nil_r. split; [reflexivity|]. split; [constructor|]. split; [constructor|]. right. split; assumption. }
  split; [apply T; assumption|]. split; [apply T; congruence|]. rewrite Hl. reflexivity.
Qed.
Lemma undo_app a b : undo (a ++ b) = undo a ++ undo b.
Proof. apply map_app. Qed.
Lemma parse_row e ls es cs rs : row_ok e -> parse_lines ls = Ok (es, cs, rs) -> parse_lines (undo (row e) :: ls) = Ok (e :: es, cs, rs).
Proof.
  intros He E. pose proof (row_chars e He) as Hch. assert (H256 : Forall (fun c => c < 256) (row e)) by (eapply Forall_impl; [|exact Hch]; intros c X; apply X).
  destruct (account_ok (undo (row e) :: ls)) as (es' & cs' & rs' & E' & A). rewrite E'. cbn [parse_lines] in E'. rewrite E in E'. cbn [bind] in E'.
  pose proof He as [(N0 & Hn & H1 & H2 & H3 & H4 & H5) (Hl & Hc)]. set (b := undo (row e)) in *.
  assert (Lb : latin1 b = row e) by now apply latin1_undo.
  assert (Hne : e_crc e <> []) by (intros X; rewrite X in Hl; discriminate).
  assert (Hrow : row e <> []) by (unfold row; destruct (e_name e); [congruence|discriminate]).
  assert (Hlast : ~ ascii_white (last (row e) 0)).
  { unfold row. rewrite app_assoc, last_app by exact Hne. intros X. destruct (last_ex (e_crc e) 0 Hne) as [c' Ec]. rewrite Forall_forall in Hc. apply (hex_not_white (last (e_crc e) 0)); [|now left].
    apply Hc. rewrite Ec at 2. rewrite in_app_iff. right. now left. }
  assert (Rd : rdrop_while bspace b = b).
  { apply (rdrop_last_stop bspace b x00).
    - destruct (bspace (last b x00)) eqn:X; [|reflexivity]. apply bspace_iff in X. rewrite <- (map_last b2n b x00) in X. change (map b2n b) with (latin1 b) in X. change (b2n x00) with 0 in X. rewrite Lb in X. contradiction.
    - intros X. rewrite X in Lb. cbn in Lb. congruence. }
  assert (P : parse_entry b = Ok e).
  { destruct e as [n c]. apply (entry_complete b n c []); [|constructor|right; now rewrite Lb]. rewrite app_nil_r, Lb. now apply (row_entry (mkSfv n c)). }
  destruct b as [|x r] eqn:Eb; [cbn in Lb; congruence|].
  assert (Hx : b2n x = hd 0 (row e)) by (rewrite <- Lb; reflexivity). assert (Hh : hd 0 (row e) = hd 0 (e_name e)) by (unfold row; now apply hd_app).
  assert (Bx : bspace x = false).
  { destruct (bspace x) eqn:X; [|reflexivity]. apply bspace_iff in X. rewrite Hx, Hh in X. exfalso. apply H1. now left. }
  unfold strip in E'. rewrite drop_while_stop in E' by exact Bx. rewrite Rd in E'.
  assert (Hs : x <> x3b) by (intros ->; apply H5; rewrite <- Hh, <- Hx; reflexivity).
  assert (Hgo : forall T (u v : T), (match x with x3b => u | _ => v end) = v).
  { intros T u v. destruct x; try reflexivity. congruence. }
  rewrite Hgo in E'. rewrite P in E'. symmetry. exact E'.
Qed.
Lemma map_cr2lf t : Forall (fun c => c < 256 /\ c <> 9 /\ c <> 10 /\ c <> 13) t -> map cr2lf (undo t) = undo t.
Proof.
  intros H. rewrite <- (map_id (undo t)) at 2. apply map_ext_in. intros b Hb. unfold undo in Hb. apply in_map_iff in Hb as (c & <- & Hc). rewrite Forall_forall in H. specialize (H c Hc).
  unfold cr2lf. rewrite b2n_n2b_small by lia. destruct (N.eqb_spec c 13); [lia|reflexivity].
Qed.
Theorem rows_thm l : Forall row_ok l -> parse_sfv_data (undo (concat (map ser_entry l))) = Ok (l, [], []).
Proof.
  unfold parse_sfv_data. fold cr2lf. induction 1 as [|e l He H IH]; [reflexivity|]. cbn [map concat].
  rewrite undo_app. pose proof (row_chars e He) as Hch.
  assert (E : map cr2lf (undo (ser_entry e) ++ undo (concat (map ser_entry l))) = undo (row e) ++ x0a :: x0a :: map cr2lf (undo (concat (map ser_entry l)))).
  { rewrite map_app. unfold ser_entry. replace (e_name e ++ [32] ++ e_crc e ++ [13; 10]) with (row e ++ [13; 10]) by (unfold row; now rewrite <- !app_assoc).
    rewrite undo_app, map_app, map_cr2lf by exact Hch. rewrite <- app_assoc. reflexivity. }
  rewrite E, split_lf_line.
  - pose proof (split_lf_line [] (map cr2lf (undo (concat (map ser_entry l)))) (Forall_nil _)) as X. cbn [app] in X. rewrite X. apply parse_row; [exact He|]. cbn [parse_lines]. rewrite IH. reflexivity.
  - unfold undo. rewrite Forall_map. eapply Forall_impl; [|exact Hch]. intros c X. cbv beta in X. rewrite b2n_n2b_small; lia.
Qed.
