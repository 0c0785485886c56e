(** StoreFacts: lemmas about relpath and the stored names. *)
From Verif Require Import Base BaseFacts Path PathSpec PathFacts RarSpec SrrSpec Srr FsSpec FsFacts Store.

Lemma split_app_any c a b : split c (a ++ c :: b) = split c a ++ split c b.
Proof.
  induction a as [|x a IH]; cbn [app split].
  - destruct (split_cons_nonempty c b) as (w & ws & E). rewrite E, N.eqb_refl. reflexivity.
  - rewrite IH. destruct (split_cons_nonempty c a) as (w & ws & ->). cbn [app].
    now destruct (x =? c).
Qed.
Lemma walk_app w a b : walk w (a ++ b) = walk (walk w a) b.
Proof. apply fold_left_app. Qed.
Lemma last_is_snoc c t : last_is c t = true -> exists t', t = t' ++ [c].
Proof.
  unfold last_is. intros H. destruct (rev t) as [|x r] eqn:E; [discriminate|].
  apply N.eqb_eq in H. subst. exists (rev r). rewrite <- (rev_involutive t), E. reflexivity.
Qed.
Lemma first_app c a b : a <> [] -> first_is c (a ++ b) = first_is c a.
Proof. destruct a; [congruence|reflexivity]. Qed.
(** joining to the current folder *)
Lemma pjoin_denotes cwd c0 p r : first_is 47 cwd = true -> denotes [] cwd c0 ->
  (denotes [] (pjoin cwd p) r <-> denotes c0 p r).
Proof.
  intros A D. apply denotes_split in D. rewrite A in D. rewrite !denotes_split. unfold pjoin.
  fold SLASH. destruct (first_is SLASH p) eqn:F; [unfold SLASH in *; rewrite F; reflexivity|].
  unfold SLASH in *. assert (NE : cwd <> []) by (intros ->; discriminate).
  assert (L : (lenN cwd =? 0) = false).
  { apply N.eqb_neq. destruct cwd; [congruence|]. rewrite lenN_cons. lia. }
  rewrite L. cbn [orb]. destruct (last_is 47 cwd) eqn:E.
  - rewrite first_app, A by assumption. apply last_is_snoc in E. destruct E as (t & ->).
    rewrite <- app_assoc. cbn [app]. rewrite !split_app_any in *. rewrite !walk_app in *. subst c0.
    reflexivity.
  - rewrite first_app, A by assumption. rewrite split_app_any, walk_app. now subst c0.
Qed.

Lemma norm_comps_abs comps : forall acc, Forall plain acc -> (forall c, In c comps -> ~ In 47 c) ->
  Forall plain (norm_comps true comps acc).
Proof.
  induction comps as [|c cs IH]; intros acc Ha Hs; cbn [norm_comps]; [now apply Forall_rev|].
  assert (Hs' : forall c, In c cs -> ~ In 47 c) by (intros x Hx; apply Hs; now right).
  destruct (teqb c [] || teqb c DOT) eqn:E0; [now apply IH|].
  apply orb_false_elim in E0 as [E1 E2]. cbn [negb andb orb].
  destruct (teqb c DOTDOT) eqn:E3; cbn [negb orb].
  - destruct acc as [|a acc]; [now apply IH|]. pose proof (Forall_inv Ha) as Hx.
    assert (Ex : teqb a DOTDOT = false) by (apply teqb_neq; apply Hx). rewrite Ex.
    apply IH; [now apply Forall_inv_tail in Ha|assumption].
  - apply IH; [|assumption]. constructor; [|assumption].
    apply plain_teqb; [now apply teqb_neq| now apply teqb_neq|now apply teqb_neq|]. apply Hs. now left.
Qed.
Lemma walk_plain w cs : Forall plain cs -> walk w cs = rev cs ++ w.
Proof.
  revert w. induction cs as [|c cs IH]; intros w H; [reflexivity|].
  inversion H as [|x y Hc Hcs]; subst. unfold walk in *. cbn [fold_left]. rewrite plain_step by assumption.
  rewrite IH by assumption. cbn [rev]. now rewrite <- app_assoc.
Qed.
Lemma path_list_slashes i t : path_list (repN i SLASH ++ t) = path_list t.
Proof.
  unfold path_list, repN. induction (N.to_nat i) as [|n IH]; [reflexivity|]. cbn [repeat app].
  change (SLASH :: repeat SLASH n ++ t) with ([] ++ 47 :: (repeat SLASH n ++ t)).
  unfold SLASH in *. rewrite split_app_sep by intros []. cbn [filter]. exact IH.
Qed.
Lemma path_list_join cs : Forall plain cs -> path_list (join SLASH cs) = cs.
Proof.
  intros H. destruct cs as [|c cs]; [reflexivity|]. unfold path_list. unfold SLASH at 1.
  rewrite split_join_nosep; [|discriminate|intros x Hx; rewrite Forall_forall in H; now apply H].
  set (l := c :: cs) in *. clearbody l. induction H as [|x l Hx Hl IH]; [reflexivity|]. cbn [filter].
  destruct Hx as (Hx & _). apply teqb_neq in Hx. rewrite Hx. cbn [negb]. now rewrite IH.
Qed.
(** the components of an absolute path in normal form *)
Lemma path_list_norm p r : first_is 47 p = true -> denotes [] p r ->
  path_list (normpath p) = rev r /\ Forall plain r.
Proof.
  intros F D. apply denotes_split in D. rewrite F in D. destruct p as [|x p]; [discriminate|].
  unfold normpath. set (P := x :: p) in *. set (i := initial_slashes P).
  assert (Hi : (0 <? i) = true).
  { rewrite <- F. unfold i, initial_slashes, first_is, P, SLASH. destruct p as [|y [|z p]]; destruct (x =? 47); try reflexivity.
    - now destruct (y =? 47).
    - now destruct ((y =? 47) && negb (z =? 47)). }
  rewrite Hi. assert (Hp : Forall plain (norm_comps true (split SLASH P) [])).
  { apply norm_comps_abs; [constructor|]. apply (split_no_sep 47). }
  assert (Hw : walk [] (norm_comps true (split SLASH P) []) = r).
  { rewrite norm_comps_walk; [symmetry; exact D|reflexivity|exists [], O; auto|apply (split_no_sep 47)]. }
  rewrite walk_plain, app_nil_r in Hw by assumption.
  set (ncs := norm_comps true (split SLASH P) []) in *. clearbody ncs. clear D. subst r.
  split; [|now apply Forall_rev]. rewrite rev_involutive.
  rewrite <- (N.succ_pred i) by lia. rewrite repN_succ. cbn [app].
  change (SLASH :: repN (N.pred i) SLASH ++ join SLASH ncs) with ((SLASH :: repN (N.pred i) SLASH) ++ join SLASH ncs).
  rewrite <- repN_succ, path_list_slashes. now apply path_list_join.
Qed.
Lemma first_pjoin cwd p : first_is 47 cwd = true -> first_is 47 (pjoin cwd p) = true.
Proof.
  intros F. unfold pjoin, SLASH. destruct (first_is 47 p) eqn:E; [assumption|].
  destruct cwd as [|x c]; [discriminate|]. destruct (_ || _); exact F.
Qed.
Lemma abspath_list cwd c0 p r : first_is 47 cwd = true -> denotes [] cwd c0 -> denotes c0 p r ->
  path_list (abspath cwd p) = rev r /\ Forall plain r.
Proof.
  intros F D P. apply path_list_norm; [now apply first_pjoin|]. now apply (pjoin_denotes cwd c0).
Qed.

Lemma common_split a : forall b, exists s ta tb, a = s ++ ta /\ b = s ++ tb /\ List.length s = common a b /\
  match ta, tb with x :: _, y :: _ => x <> y | _, _ => True end.
Proof.
  induction a as [|x a IH]; intros b; cbn [common]; [exists [], [], b; repeat split; now destruct b|].
  destruct b as [|y b]; [exists [], (x :: a), []; repeat split|].
  destruct (teqb x y) eqn:E.
  - apply teqb_eq in E. subst y. destruct (IH b) as (s & ta & tb & -> & -> & L & H).
    exists (x :: s), ta, tb. cbn. repeat split; congruence || auto.
  - exists [], (x :: a), (y :: b). repeat split. now apply teqb_neq.
Qed.
Lemma tl_walk n : forall w, walk w (repeat DOTDOT n) = skipn n w.
Proof.
  induction n as [|n IH]; intros w; [reflexivity|]. cbn [repeat]. unfold walk in *. cbn [fold_left].
  rewrite step_spec. replace (teqb DOTDOT [] || teqb DOTDOT DOT) with false by reflexivity.
  replace (teqb DOTDOT DOTDOT) with true by reflexivity. rewrite IH. destruct w; [now rewrite !skipn_nil|reflexivity].
Qed.
Lemma skipn_rev_app {A} (a b : list A) : skipn (List.length b) (rev b ++ a) = a.
Proof. rewrite skipn_app, rev_length, Nat.sub_diag, skipn_all2 by (rewrite rev_length; lia). reflexivity. Qed.

Lemma join_nosep cs : cs <> [] -> Forall (fun c => ~ In 47 c) cs -> joined [47] cs (join SLASH cs).
Proof.
  intros Hne H. rewrite <- (split_join_nosep cs) at 1; [apply split_joined|assumption|].
  now apply Forall_forall.
Qed.
(** what relpath returns *)
Lemma relpath_spec cwd c0 path start rp rs :
  first_is 47 cwd = true -> denotes [] cwd c0 -> denotes c0 start rs -> denotes c0 path rp -> path <> [] ->
  exists s ta tb n, rev rs = s ++ ta /\ rev rp = s ++ tb /\
    match ta, tb with x :: _, y :: _ => x <> y | _, _ => True end /\
    Forall plain tb /\ relpath cwd path start = Ok n /\
    ((ta = [] /\ tb = [] /\ n = DOT) \/ joined [47] (repeat DOTDOT (List.length ta) ++ tb) n).
Proof.
  intros F D S P NE. destruct (abspath_list _ _ _ _ F D S) as [Es Ps].
  destruct (abspath_list _ _ _ _ F D P) as [Ep Pp].
  destruct (common_split (rev rs) (rev rp)) as (s & ta & tb & E1 & E2 & L & H).
  assert (Ptb : Forall plain tb).
  { apply Forall_rev in Pp. rewrite E2 in Pp. now apply Forall_app in Pp. }
  exists s, ta, tb. unfold relpath. destruct path as [|c0' path]; [congruence|]. rewrite Es, Ep.
  rewrite <- L, E1, E2.
  replace (List.length (s ++ ta) - List.length s)%nat with (List.length ta) by (rewrite app_length; lia).
  replace (skipn (List.length s) (s ++ tb)) with tb by (rewrite skipn_app, skipn_all, Nat.sub_diag; reflexivity).
  destruct (repeat DOTDOT (List.length ta) ++ tb) as [|c cs] eqn:R.
  - exists DOT. repeat split; auto. left. apply app_eq_nil in R. destruct R as [R ->]. destruct ta; [auto|discriminate].
  - exists (join SLASH (c :: cs)). repeat split; auto. right. apply join_nosep; [discriminate|].
    rewrite <- R. apply Forall_app. split; [|eapply Forall_impl; [|exact Ptb]; intros x Hx; apply Hx].
    apply Forall_forall. intros x Hx. apply repeat_spec in Hx. subst x.
    intros [X|[X|[]]]; discriminate.
Qed.

Theorem relpath_leads cwd c0 path start rp rs :
  first_is 47 cwd = true -> denotes [] cwd c0 -> denotes c0 start rs -> denotes c0 path rp -> path <> [] ->
  exists n, relpath cwd path start = Ok n /\ denotes rs n rp.
Proof.
  intros F D S P NE. destruct (relpath_spec _ _ _ _ _ _ F D S P NE) as (s & ta & tb & n & E1 & E2 & H & Pt & R & J).
  exists n. split; [exact R|]. destruct J as [(-> & -> & ->)|J].
  - rewrite app_nil_r in *. assert (rs = rp) by (rewrite <- (rev_involutive rs), E1, <- E2; apply rev_involutive). subst.
    exists [DOT]. split; [|reflexivity]. constructor. intros x [<-|[]] [X|[]]; discriminate.
  - apply denotes_split. pose proof (joined_split _ _ _ J) as Es. rewrite <- Es.
    assert (Ff : first_is 47 n = false).
    { clear - J Pt. remember (repeat DOTDOT (List.length ta) ++ tb) as l eqn:El.
      assert (Hl : forall c cs, l = c :: cs -> c <> []).
      { intros c cs ->. destruct ta; cbn [List.length repeat app] in El; [|injection El as -> _; discriminate].
        subst tb. apply Forall_inv in Pt. apply Pt. }
      clear El Pt. destruct J as [c Hc|c sp cs t Hc Hs Hj]; specialize (Hl _ _ eq_refl);
        (destruct c as [|x c]; [congruence|]); cbn; apply N.eqb_neq; intros ->; apply (Hc 47); now left. }
    rewrite Ff, walk_app, tl_walk, walk_plain by assumption.
    assert (rs = rev ta ++ rev s) by (rewrite <- rev_app_distr, <- E1; now rewrite rev_involutive).
    assert (rp = rev tb ++ rev s) by (rewrite <- rev_app_distr, <- E2; now rewrite rev_involutive).
    subst rs rp. now rewrite skipn_rev_app.
Qed.
Theorem relpath_below cwd c0 path start cs rs :
  first_is 47 cwd = true -> denotes [] cwd c0 -> denotes c0 start rs -> cs <> [] ->
  denotes c0 path (rev cs ++ rs) -> path <> [] ->
  exists n, relpath cwd path start = Ok n /\ below cs n.
Proof.
  intros F D S NC P NE. destruct (relpath_spec _ _ _ _ _ _ F D S P NE) as (s & ta & tb & n & E1 & E2 & H & Pt & R & J).
  exists n. split; [exact R|]. rewrite rev_app_distr, rev_involutive, E1, <- app_assoc in E2.
  apply app_inv_head in E2. destruct ta as [|x ta].
  - cbn [app] in E2. subst tb. destruct J as [(_ & -> & _)|J]; [congruence|]. repeat split; auto.
  - exfalso. destruct tb as [|y tb]; [discriminate|]. cbn in E2. injection E2 as E2 _. congruence.
Qed.
(** a file that is not below the folder *)
Theorem relpath_outside cwd c0 path start rp rs :
  first_is 47 cwd = true -> denotes [] cwd c0 -> denotes c0 start rs -> denotes c0 path rp -> path <> [] ->
  ~ (exists cs, rp = rev cs ++ rs) ->
  exists n, relpath cwd path start = Ok n /\ exists cs, joined [47] (str ".." :: cs) n.
Proof.
  intros F D S P NE O. destruct (relpath_spec _ _ _ _ _ _ F D S P NE) as (s & ta & tb & n & E1 & E2 & H & Pt & R & J).
  exists n. split; [exact R|].
  assert (rs = rev ta ++ rev s) by (rewrite <- rev_app_distr, <- E1; now rewrite rev_involutive).
  assert (rp = rev tb ++ rev s) by (rewrite <- rev_app_distr, <- E2; now rewrite rev_involutive).
  destruct ta as [|x ta]; [exfalso; apply O; exists tb; subst; reflexivity|].
  destruct J as [(X & _)|J]; [discriminate|]. cbn [List.length repeat app] in J. eauto.
Qed.

(** the meaning of a place below a folder *)
Theorem in_folder_denotes cwd folder r0 cs p : denotes cwd folder r0 -> below cs p ->
  denotes cwd (in_folder (normpath folder) p) (rev cs ++ r0).
Proof.
  intros D B. apply normpath_denotes in D. assert (NE : normpath folder <> []).
  { unfold normpath. destruct folder; [discriminate|]. match goal with |- match ?q with _ => _ end <> _ => now destruct q end. }
  set (f := normpath folder) in *. clearbody f. rewrite <- (pjoin_folder f cs p B). unfold pjoin, SLASH.
  pose proof (first_is_joined _ _ B) as F. unfold SLASH in F. rewrite F.
  assert (L : (lenN f =? 0) = false).
  { apply N.eqb_neq. destruct f; [congruence|]. rewrite lenN_cons. lia. }
  rewrite L. cbn [orb]. apply denotes_split in D. apply denotes_split.
  destruct B as (_ & Pc & J). apply joined_split in J. destruct (last_is 47 f) eqn:E.
  - rewrite first_app by assumption. apply last_is_snoc in E. destruct E as (t & ->).
    rewrite <- app_assoc. cbn [app]. rewrite split_app_any in *. rewrite walk_app in *. cbn [split] in D.
    unfold walk at 1 in D. cbn [fold_left] in D. replace (step (walk _ (split 47 t)) []) with
      (walk (if first_is 47 (t ++ [47]) then [] else cwd) (split 47 t)) in D by reflexivity.
    rewrite <- D, <- J. symmetry. now apply walk_plain.
  - rewrite first_app by assumption. rewrite split_app_any, walk_app, <- D, <- J. symmetry. now apply walk_plain.
Qed.

(** extraction: one file *)
Lemma extracted_all paths folder l o : extracted paths folder (asked []) l o ->
  forall n d out, In (n, d) l -> target paths folder n out ->
  (forall n' d', In (n', d') l -> target paths folder n' out -> d' = d) -> first_for out o = Some d.
Proof.
  induction 1 as [|n d out l o T S E IH|n d out l o T S E IH]; intros n0 d0 out0 HI HT HU; [destruct HI| |].
  - cbn [first_for]. destruct (text_dec out out0) as [->|N].
    + f_equal. apply (HU n d); [now left|assumption].
    + destruct HI as [X|HI].
      * injection X as <- <-. exfalso. apply N. revert T HT. clear. intros (p & Hp & A) (p' & Hp' & A').
        assert (p = p').
        { destruct Hp as (cs & J & B & P & J2), Hp' as (cs' & J' & B' & P' & J2').
          apply joined_replace in J, J'. apply joined_split in J, J'. subst cs cs'. eapply joined_det; eassumption. }
        subst p'. destruct paths; [congruence|]. destruct A as (b & (cs & Bb) & ->), A' as (b' & (cs' & Bb') & ->).
        f_equal. destruct Bb as (_ & _ & J), Bb' as (_ & _ & J'). apply joined_split in J, J'. rewrite <- J in J'.
        now apply app_inj_tail in J'.
      * apply (IH n0 d0 out0 HI HT). intros n' d' HI' HT'. apply (HU n' d'); [now right|assumption].
  - exfalso. apply S. destruct T as (p & Hp & _). exists p. auto.
Qed.

Lemma last_slash p : ~ In 47 p \/ exists d e, p = d ++ 47 :: e /\ ~ In 47 e.
Proof.
  induction p as [|c p IH]; [now left|]. destruct IH as [IH|(d & e & -> & H)].
  - destruct (N.eqb_spec c 47) as [->|]; [right; exists [], p; auto|left; intros [|]; auto].
  - right. exists (c :: d), e. auto.
Qed.
Lemma stored_name_flat cwd in_folder sfile : exists n,
  stored_name cwd false in_folder sfile = Ok n /\ volume_name cwd false in_folder sfile = Ok n /\
  ~ In 47 n /\ (sfile = n \/ exists p, sfile = p ++ [47] ++ n).
Proof.
  exists (basename sfile). split; [reflexivity|]. split; [reflexivity|].
  destruct (last_slash sfile) as [H|(d & e & -> & H)].
  - rewrite basename_nosep by exact H. auto.
  - rewrite basename_sep by exact H. split; [exact H|]. right. now exists d.
Qed.
