From Coq Require Import Lia.
From Verif Require Import Base BaseFacts Path PathSpec.

(** ** split and join *)
Lemma split_cons_nonempty c t : exists w ws, split c t = w :: ws.
Proof.
  induction t as [|x t (w & ws & E)]; cbn [split]; [eauto|]. rewrite E. destruct (x =? c); eauto.
Qed.
Lemma split_nosep c w : ~ In c w -> split c w = [w].
Proof.
  induction w as [|x w IH]; intros H; [reflexivity|]. cbn [split].
  rewrite IH by (intros Hi; apply H; now right).
  destruct (N.eqb_spec x c) as [->|]; [exfalso; apply H; now left|reflexivity].
Qed.
Lemma split_app_sep c w t : ~ In c w -> split c (w ++ c :: t) = w :: split c t.
Proof.
  induction w as [|x w IH]; intros H; cbn [app split].
  - rewrite N.eqb_refl. destruct (split_cons_nonempty c t) as (a & b & ->). reflexivity.
  - rewrite IH by (intros Hi; apply H; now right).
    destruct (N.eqb_spec x c) as [->|]; [exfalso; apply H; now left|reflexivity].
Qed.
Lemma split_joined c t : joined [c] (split c t) t.
Proof.
  induction t as [|x t IH]; cbn [split].
  - constructor. intros s _ [].
  - destruct (split_cons_nonempty c t) as (w & ws & E). rewrite E in *.
    destruct (N.eqb_spec x c) as [->|Hx].
    + change (c :: t) with ([] ++ c :: t). apply joined_more; [intros s _ []|now left|exact IH].
    + inversion IH as [w' Hw E1 E2|w' s ws' t' Hw Hs Hj E1 E2]; subst; cbn [app].
      * constructor. intros s Hs [->|Hi]; [destruct Hs as [<-|[]]; congruence|now apply (Hw s)].
      * change (x :: w ++ s :: t') with ((x :: w) ++ s :: t'). apply joined_more; try assumption.
        intros r Hr [->|Hi]; [destruct Hr as [<-|[]]; congruence|now apply (Hw r)].
Qed.
Lemma joined_split c cs t : joined [c] cs t -> cs = split c t.
Proof.
  induction 1 as [w H|w s cs t H Hs Hj IH].
  - symmetry. apply split_nosep. apply H. now left.
  - destruct Hs as [<-|[]]. rewrite split_app_sep by (apply H; now left). now rewrite IH.
Qed.
Lemma joined_nonempty seps cs t : joined seps cs t -> cs <> [].
Proof. destruct 1; discriminate. Qed.

Lemma replace1_nosep a b w : ~ In a w -> replace1 a b w = w.
Proof.
  intros H. induction w as [|x w IH]; [reflexivity|]. cbn [replace1 map] in *.
  destruct (N.eqb_spec x a) as [->|]; [exfalso; apply H; now left|].
  f_equal. apply IH. intros Hi. apply H. now right.
Qed.
Lemma in_replace1 a b s w : s <> a -> s <> b -> In s (replace1 a b w) -> In s w.
Proof.
  intros Ha Hb Hi. apply in_map_iff in Hi as (x & E & Hx). destruct (x =? a); congruence.
Qed.
Lemma joined_one_inv seps w t : joined seps [w] t -> w = t /\ forall s, In s seps -> ~ In s t.
Proof. inversion 1; subst; [auto|]. now apply joined_nonempty in H5. Qed.
(** both slashes separate after the replacement *)
Lemma joined_replace cs t : joined [47; 92] cs t -> joined [47] cs (replace1 92 47 t).
Proof.
  induction 1 as [w H|w s cs t H Hs Hj IH].
  - rewrite replace1_nosep by (apply H; right; now left).
    constructor. intros s [<-|[]]. apply H. now left.
  - unfold replace1 in *. rewrite map_app. cbn [map].
    fold (replace1 92 47 w). rewrite replace1_nosep by (apply H; right; now left).
    replace (if s =? 92 then 47 else s) with 47
      by (destruct Hs as [<-|[<-|[]]]; reflexivity).
    apply joined_more; [|now left|exact IH]. intros r [<-|[]]. apply H. now left.
Qed.
Lemma replace_joined t : forall cs, joined [47] cs (replace1 92 47 t) -> joined [47; 92] cs t.
Proof.
  induction t as [|x t IH]; intros cs H.
  - cbn in H. inversion H; subst.
    + constructor. intros s _ [].
    + destruct c; discriminate.
  - unfold replace1 in H. cbn [map] in H. fold (replace1 92 47 t) in H.
    remember (if x =? 92 then 47 else x) as y eqn:Ey.
    destruct (N.eqb_spec y 47) as [->|Hy].
    + change (47 :: replace1 92 47 t) with ([] ++ 47 :: replace1 92 47 t) in H.
      apply joined_split in H. rewrite split_app_sep in H by intros []. subst cs.
      change (x :: t) with ([] ++ x :: t). apply joined_more; [intros s _ []| |].
      * destruct (N.eqb_spec x 92); [right; left; congruence|left; congruence].
      * apply IH. apply split_joined.
    + destruct (N.eqb_spec x 92) as [->|Hx]; [congruence|]. subst y.
      inversion H as [c Hc E1 E2|c s cs' t' Hc Hs Hj E1 E2]; subst.
      * assert (Ht : joined [47;92] [replace1 92 47 t] t).
        { apply IH. constructor. intros s Hs Hi. apply (Hc s Hs). now right. }
        apply joined_one_inv in Ht as [Er Hn]. rewrite Er. constructor.
        intros s Hs [->|Hi]; [destruct Hs as [<-|[<-|[]]]; congruence|now apply (Hn s)].
      * destruct Hs as [<-|[]]. destruct c as [|c0 c]; cbn [app] in E2.
        { injection E2 as E2 _. congruence. }
        injection E2 as -> E2.
        assert (Ht : joined [47;92] (c :: cs') t).
        { apply IH. rewrite <- E2. apply joined_more; [|now left|assumption].
          intros s Hs Hi. apply (Hc s Hs). now right. }
        inversion Ht as [c' Hc' E3 E4|c' s cs'' t'' Hc' Hs Hj' E3 E4]; subst.
        -- now apply joined_nonempty in Hj.
        -- change (x :: c ++ s :: t'') with ((x :: c) ++ s :: t'').
           apply joined_more; try assumption. intros r Hr [->|Hi]; [|now apply (Hc' r)].
           destruct Hr as [<-|[<-|[]]]; congruence.
Qed.

(** ** dirname, basename, pjoin *)
Lemma split_tail_nosep r : ~ In 47 r -> split_tail r = (r, []).
Proof.
  induction r as [|x r IH]; intros H; [reflexivity|]. cbn [split_tail]. unfold SLASH.
  destruct (N.eqb_spec x 47) as [->|]; [exfalso; apply H; now left|].
  rewrite IH by (intros Hi; apply H; now right). reflexivity.
Qed.
Lemma split_tail_sep r h : ~ In 47 r -> split_tail (r ++ 47 :: h) = (r, 47 :: h).
Proof.
  induction r as [|x r IH]; intros H; [reflexivity|]. cbn [split_tail app]. unfold SLASH.
  destruct (N.eqb_spec x 47) as [->|]; [exfalso; apply H; now left|].
  rewrite IH by (intros Hi; apply H; now right). reflexivity.
Qed.
Lemma dirname_nosep e : ~ In 47 e -> dirname e = [].
Proof.
  intros H. unfold dirname. rewrite split_tail_nosep by now rewrite <- in_rev. reflexivity.
Qed.
Lemma basename_nosep e : ~ In 47 e -> basename e = e.
Proof.
  intros H. unfold basename. rewrite split_tail_nosep by now rewrite <- in_rev. cbn. apply rev_involutive.
Qed.
Lemma basename_sep d e : ~ In 47 e -> basename (d ++ 47 :: e) = e.
Proof.
  intros H. unfold basename. rewrite rev_app_distr. cbn [rev]. rewrite <- app_assoc. cbn [app].
  rewrite split_tail_sep by now rewrite <- in_rev. cbn. apply rev_involutive.
Qed.
Lemma drop_slashes_nonempty r : (exists x, In x r /\ x <> 47) -> drop_slashes r <> [].
Proof.
  induction r as [|y r IH]; intros (x & Hi & Hx); [destruct Hi|]. cbn [drop_slashes]. unfold SLASH.
  destruct (N.eqb_spec y 47) as [->|]; [|discriminate]. apply IH. destruct Hi as [E|Hi]; [congruence|].
  eauto.
Qed.
Lemma split_tail_in r : In 47 r -> exists t h, split_tail r = (t, 47 :: h) /\ ~ In 47 t.
Proof.
  induction r as [|x r IH]; intros H; [destruct H|]. cbn [split_tail]. unfold SLASH.
  destruct (N.eqb_spec x 47) as [->|Hx]; [exists [], r; split; [reflexivity|intros []]|].
  destruct H as [->|H]; [congruence|]. destruct (IH H) as (t & h & -> & Ht).
  exists (x :: t), h. split; [reflexivity|]. intros [->|Hi]; [congruence|contradiction].
Qed.
Lemma dirname_sep e : In 47 e -> dirname e <> [].
Proof.
  intros H. apply in_rev in H. destruct (split_tail_in _ H) as (t & h & E & _).
  unfold dirname. rewrite E. cbn [snd]. destruct (forallb (N.eqb SLASH) (rev (47 :: h))) eqn:F.
  - cbn [rev]. intros E'. now apply app_eq_nil in E' as [_ E'].
  - unfold rstrip_slash. rewrite rev_involutive. intros E'.
    assert (D : drop_slashes (47 :: h) = []) by (rewrite <- (rev_involutive (drop_slashes _)), E'; reflexivity).
    revert D. apply drop_slashes_nonempty.
    assert (Hex : existsb (fun x => negb (N.eqb SLASH x)) (rev (47 :: h)) = true).
    { clear - F. induction (rev (47 :: h)) as [|y l IH]; [discriminate|]. cbn [forallb existsb] in *.
      destruct (N.eqb SLASH y); cbn in *; [auto|reflexivity]. }
    apply existsb_exists in Hex as (x & Hx & Hn). exists x. split; [now apply in_rev|].
    unfold SLASH in Hn. intros ->. discriminate.
Qed.

Lemma bad_elem_spec e : bad_elem e = false <-> plain e.
Proof.
  unfold bad_elem, plain. split.
  - intros H. apply orb_false_elim in H as [H1 H2].
    assert (~ In 47 e).
    { intros Hi. apply dirname_sep in Hi. destruct (teqb (dirname e) []) eqn:E; [|discriminate].
      apply teqb_eq in E. contradiction. }
    assert (Hm : forall x, In x [[]; DOT; DOTDOT; str "/dev/null"] -> e <> x).
    { intros x Hx ->. apply mem_text_In in Hx. congruence. }
    repeat split; [apply Hm; now left|apply (Hm DOT); right; now left|
      apply (Hm DOTDOT); right; right; now left|assumption].
  - intros (H1 & H2 & H3 & H4). rewrite dirname_nosep by assumption.
    replace (teqb [] []) with true by reflexivity. cbn [negb orb].
    destruct (mem_text e _) eqn:E; [|reflexivity]. apply mem_text_In in E.
    exfalso. destruct E as [E|[E|[E|[E|[]]]]]; subst; auto. apply H4. vm_compute. auto.
Qed.

Lemma first_is_plain c : plain c -> first_is SLASH c = false.
Proof.
  intros (H & _ & _ & H4). destruct c as [|x c]; [congruence|]. cbn. apply N.eqb_neq.
  intros ->. apply H4. now left.
Qed.
Lemma last_is_app c w x : last_is c (w ++ [x]) = (x =? c).
Proof. unfold last_is. now rewrite rev_app_distr. Qed.
Lemma last_is_plain w c : plain c -> last_is SLASH (w ++ c) = false.
Proof.
  intros (H & _ & _ & H4). destruct (exists_last H) as (l & x & ->).
  rewrite app_assoc, last_is_app. apply N.eqb_neq. intros ->. apply H4. apply in_or_app. right. now left.
Qed.
Lemma first_is_joined cs p : below cs p -> first_is SLASH p = false.
Proof.
  intros (_ & Hp & Hj). inversion Hj; subst; inversion Hp; subst.
  - now apply first_is_plain.
  - destruct H4 as (Hne & _ & _ & Hns). destruct c; [congruence|]. cbn. apply N.eqb_neq. intros ->.
    apply Hns. now left.
Qed.

Lemma pjoin_folder out cs p : below cs p -> pjoin out p = in_folder out p.
Proof.
  intros H. unfold pjoin, in_folder. rewrite (first_is_joined _ _ H). unfold last_is.
  destruct out as [|x out]; [reflexivity|].
  replace (lenN (x :: out) =? 0) with false by (symmetry; apply N.eqb_neq; rewrite lenN_cons; lia).
  cbn [orb]. destruct (rev (x :: out)) eqn:E; [|reflexivity].
  apply (f_equal (@rev N)) in E. rewrite rev_involutive in E. discriminate.
Qed.

Lemma pjoin_all_plain cs : forall w, Forall plain cs -> (w = [] \/ last_is SLASH w = false) ->
  pjoin_all w cs = match cs with [] => w | _ => match w with [] => join SLASH cs | _ => w ++ SLASH :: join SLASH cs end end.
Proof.
  unfold pjoin_all. induction cs as [|c cs IH]; intros w Hp Hw; [reflexivity|]. inversion Hp as [|? ? Hc Hcs]; subst.
  cbn [fold_left]. unfold pjoin at 2. rewrite first_is_plain by assumption.
  assert (Hne : c <> []) by apply Hc.
  destruct w as [|x w].
  - cbn [lenN N.eqb orb app]. rewrite IH; [|assumption|right; now apply (last_is_plain [])].
    destruct cs; [reflexivity|]. destruct c; [congruence|]. reflexivity.
  - replace (lenN (x :: w) =? 0) with false by (symmetry; apply N.eqb_neq; rewrite lenN_cons; lia).
    destruct Hw as [Hw|Hw]; [discriminate|]. rewrite Hw. cbn [orb].
    rewrite IH; [|assumption|right; change (SLASH :: c) with ([SLASH] ++ c); rewrite app_assoc; now apply last_is_plain].
    destruct cs as [|c' cs]; [reflexivity|]. cbn [app].
    change (join SLASH (c :: c' :: cs)) with (c ++ SLASH :: join SLASH (c' :: cs)).
    cbn [app]. rewrite <- app_assoc. reflexivity.
Qed.
Lemma join_joined cs : cs <> [] -> Forall plain cs -> joined [47] cs (join SLASH cs).
Proof.
  intros Hne Hp. induction Hp as [|c cs Hc Hp IH]; [congruence|]. destruct cs as [|c' cs].
  - cbn. constructor. intros s [<-|[]]. apply Hc.
  - change (join SLASH (c :: c' :: cs)) with (c ++ SLASH :: join SLASH (c' :: cs)).
    apply joined_more; [intros s [<-|[]]; apply Hc|now left|apply IH; discriminate].
Qed.
Lemma joined_det c cs t t' : joined [c] cs t -> joined [c] cs t' -> t = t'.
Proof.
  intros H. revert t'. induction H as [w H|w s cs t H Hs Hj IH]; intros t' H'.
  - inversion H'; subst; [reflexivity|]. now apply joined_nonempty in H5.
  - inversion H' as [|w' s' cs' t2 Hw' Hs' Hj']; subst; [now apply joined_nonempty in Hj|].
    destruct Hs as [<-|[]]. destruct Hs' as [<-|[]]. now rewrite (IH _ Hj').
Qed.
Lemma joinpath_spec cs p : cs <> [] -> (joinpath cs = Ok p <-> below cs p).
Proof.
  intros Hne. unfold joinpath, below. destruct (existsb bad_elem cs) eqn:E.
  - split; [discriminate|]. intros (_ & Hp & _). apply existsb_exists in E as (c & Hc & Hb).
    rewrite Forall_forall in Hp. apply Hp in Hc. apply bad_elem_spec in Hc. congruence.
  - assert (Hp : Forall plain cs).
    { apply Forall_forall. intros c Hc. apply bad_elem_spec. destruct (bad_elem c) eqn:B; [|reflexivity].
      assert (existsb bad_elem cs = true) by (apply existsb_exists; eauto). congruence. }
    rewrite pjoin_all_plain by auto. destruct cs as [|c cs]; [congruence|].
    pose proof (join_joined (c :: cs) Hne Hp) as Hj. split.
    + intros H. apply ok_inj in H. subst p. auto.
    + intros (_ & _ & H). f_equal. now apply (joined_det 47 (c :: cs)).
Qed.
Lemma joinpath_err cs e : joinpath cs = Err e -> e = ValueError.
Proof. unfold joinpath. destruct (existsb _ _); congruence. Qed.

Theorem srr_os_file_name_spec name p : srr_os_file_name name = Ok p <-> srr_path name p.
Proof.
  unfold srr_os_file_name, srr_path, BACKSLASH, SLASH.
  destruct (split_cons_nonempty 47 (replace1 92 47 name)) as (w & ws & E).
  rewrite joinpath_spec by (rewrite E; discriminate). split.
  - intros H. exists (split 47 (replace1 92 47 name)). split; [|exact H].
    apply replace_joined. apply split_joined.
  - intros (cs & Hj & H). apply joined_replace in Hj. apply joined_split in Hj. now rewrite <- Hj.
Qed.
Theorem rar_os_file_name_spec name p : rar_os_file_name name = Ok p <-> rar_path name p.
Proof.
  unfold rar_os_file_name, rar_path, BACKSLASH.
  destruct (split_cons_nonempty 92 name) as (w & ws & E).
  rewrite joinpath_spec by (rewrite E; discriminate). split.
  - intros H. exists (split 92 name). split; [|exact H]. apply split_joined.
  - intros (cs & Hj & H). apply joined_split in Hj. now rewrite <- Hj.
Qed.

Lemma basename_below cs p : below cs p -> exists c, basename p = c /\ plain c /\ (exists l, cs = l ++ [c]).
Proof.
  intros (_ & Hp & Hj). induction Hj as [c Hc|c s cs t Hc Hs Hj IH].
  - inversion Hp; subst. exists c. rewrite basename_nosep by (apply Hc; now left). repeat split; try apply H1.
    now exists [].
  - inversion Hp; subst. destruct (IH H2) as (c' & E & Hc' & l & El). exists c'. destruct Hs as [<-|[]].
    split; [|split; [assumption|exists (c :: l); now rewrite El]].
    assert (Ht : exists d, t = d ++ c' /\ (d = [] \/ exists d', d = d' ++ [47])).
    { clear - Hj El Hc'. revert l El. induction Hj as [w Hw|w s cs t Hw Hs Hj IH]; intros l El.
      - destruct l as [|? [|? ?]]; cbn in El; inversion El; subst. exists []. auto.
      - destruct l as [|w' l]; cbn in El; inversion El; subst; [now apply joined_nonempty in Hj|].
        destruct (IH _ eq_refl) as (d & -> & Hd). destruct Hs as [<-|[]].
        exists (w' ++ 47 :: d). split; [rewrite <- app_assoc; reflexivity|]. right.
        destruct Hd as [->|(d' & ->)]; [now exists w'|]. exists (w' ++ 47 :: d').
        rewrite <- app_assoc. reflexivity. }
    destruct Ht as (d & -> & Hd). destruct Hc' as (_ & _ & _ & Hn).
    destruct Hd as [->|(d' & ->)].
    + cbn [app]. now apply basename_sep.
    + replace (c ++ 47 :: (d' ++ [47]) ++ c') with ((c ++ 47 :: d') ++ 47 :: c')
        by (repeat rewrite <- app_assoc; reflexivity). now apply basename_sep.
Qed.
