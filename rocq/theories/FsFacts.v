From Coq Require Import Lia ZifyBool ZifyNat ZifyN.
From Verif Require Import Base BaseFacts Path PathSpec PathFacts Crc Rar RarSpec ReadSpec RarFacts NameFacts
  ReadFacts ReadAllFacts Srr SrrSpec SrrFacts EditFacts FsSpec.

(** ** The file system *)
Lemma fs_get_set f p d q : fs_get (fs_set f p d) q = if teqb p q then Some d else fs_get f q.
Proof. reflexivity. Qed.
Lemma fs_get_set_same f p d : fs_get (fs_set f p d) p = Some d.
Proof. rewrite fs_get_set. now rewrite teqb_refl. Qed.
Lemma fs_get_set_other f p d q : p <> q -> fs_get (fs_set f p d) q = fs_get f q.
Proof. intros H. rewrite fs_get_set. apply teqb_neq in H. now rewrite H. Qed.
Lemma fs_get_del f p q : fs_get (fs_del f p) q = if teqb p q then None else fs_get f q.
Proof.
  unfold fs_del. induction f as [|[r d] f IH]; cbn [filter fs_get fst]; [now destruct (teqb p q)|].
  destruct (teqb r p) eqn:E; cbn [negb].
  - rewrite IH. apply teqb_eq in E. subst r. destruct (teqb p q); reflexivity.
  - cbn [fs_get]. rewrite IH. destruct (teqb r q) eqn:E2; [|reflexivity].
    apply teqb_eq in E2. subst r. rewrite teqb_sym, E. reflexivity.
Qed.
Lemma fs_append_some f p old d q : fs_get f p = Some old ->
  fs_get (fs_append f p d) q = if teqb p q then Some (old ++ d) else fs_get f q.
Proof. intros H. unfold fs_append. rewrite H. apply fs_get_set. Qed.
Lemma fs_append_other f p d q : p <> q -> fs_get (fs_append f p d) q = fs_get f q.
Proof. intros H. unfold fs_append. destruct (fs_get f p); now apply fs_get_set_other. Qed.
Lemma isfile_false f p : isfile f p = false <-> fs_get f p = None.
Proof. unfold isfile. destruct (fs_get f p); split; congruence. Qed.
Lemma can_overwrite_true f p : can_overwrite f p = true <-> fs_get f p = None.
Proof. unfold can_overwrite. rewrite <- isfile_false. destruct (isfile f p); cbn; split; congruence. Qed.

(** ** normpath keeps the meaning of a path *)
Lemma step_spec cwd c : step cwd c =
  if teqb c [] || teqb c DOT then cwd else if teqb c DOTDOT then tl cwd else c :: cwd.
Proof.
  unfold step. destruct (text_dec c []) as [->|H1]; [reflexivity|]. apply teqb_neq in H1. rewrite H1. cbn [orb].
  destruct (text_dec c (str ".")) as [->|H2]; [reflexivity|]. apply teqb_neq in H2. fold DOT in H2. rewrite H2.
  destruct (text_dec c (str "..")) as [->|H3]; [reflexivity|]. apply teqb_neq in H3. fold DOTDOT in H3. now rewrite H3.
Qed.
(** the accumulator: ordinary components on top of leading ".." *)
Definition acc_ok (abs : bool) (acc : list text) : Prop :=
  exists a n, acc = a ++ repeat DOTDOT n /\ Forall plain a /\ (abs = true -> n = O).
Lemma plain_teqb c : c <> [] -> c <> DOT -> c <> DOTDOT -> ~ In 47 c -> plain c.
Proof. repeat split; assumption. Qed.
Lemma plain_step cwd c : plain c -> step cwd c = c :: cwd.
Proof.
  intros (H1 & H2 & H3 & _). rewrite step_spec. apply teqb_neq in H1, H2, H3. fold DOT in H2. fold DOTDOT in H3.
  now rewrite H1, H2, H3.
Qed.
Lemma norm_comps_walk abs comps : forall acc cwd,
  (abs = true -> cwd = []) -> acc_ok abs acc -> (forall c, In c comps -> ~ In 47 c) ->
  walk cwd (norm_comps abs comps acc) = walk (walk cwd (rev acc)) comps.
Proof.
  induction comps as [|c cs IH]; intros acc cwd Hcwd Hacc Hs; [reflexivity|].
  cbn [norm_comps]. unfold walk at 2. cbn [fold_left]. fold (walk (step (walk cwd (rev acc)) c) cs).
  assert (Hs' : forall c, In c cs -> ~ In 47 c) by (intros x Hx; apply Hs; now right).
  rewrite step_spec.
  destruct (teqb c [] || teqb c DOT) eqn:E0; [now apply IH|].
  apply orb_false_elim in E0 as [E1 E2].
  destruct (teqb c DOTDOT) eqn:E3; cbn [negb orb].
  - apply teqb_eq in E3. subst c. destruct Hacc as (a & n & -> & Ha & Hn).
    destruct a as [|x a].
    + destruct n as [|n]; cbn [app repeat].
      * destruct abs; cbn [negb andb orb].
        -- cbn [rev walk fold_left] in *. rewrite (IH [] cwd); [|assumption|exists [], O; auto|assumption].
           rewrite (Hcwd eq_refl). reflexivity.
        -- rewrite (IH [DOTDOT] cwd); [reflexivity|discriminate|exists [], 1%nat; repeat split; [constructor|discriminate]|assumption].
      * destruct abs; [specialize (Hn eq_refl); discriminate|]. cbn [negb andb orb].
        replace (teqb DOTDOT DOTDOT) with true by reflexivity. cbn [negb orb].
        rewrite (IH (DOTDOT :: DOTDOT :: repeat DOTDOT n) cwd); [|discriminate| |assumption].
        -- cbn [rev]. unfold walk. rewrite !fold_left_app. reflexivity.
        -- exists [], (S (S n)). repeat split; [constructor|discriminate].
    + cbn [app]. inversion Ha as [|? ? Hx Ha']; subst.
      assert (Ex : teqb x DOTDOT = false) by (apply teqb_neq; apply Hx). rewrite Ex.
      rewrite andb_false_r. cbn [orb].
      rewrite (IH (a ++ repeat DOTDOT n) cwd); [|assumption|exists a, n; auto|assumption].
      cbn [rev]. unfold walk. rewrite fold_left_app. cbn [fold_left]. rewrite plain_step by assumption. reflexivity.
  - assert (Hc : plain c).
    { apply plain_teqb; [now apply teqb_neq| now apply teqb_neq|now apply teqb_neq|]. apply Hs. now left. }
    etransitivity; [apply (IH (c :: acc) cwd); [assumption| |assumption]|].
    2:{ cbn [rev]. unfold walk. rewrite !fold_left_app. cbn [fold_left]. rewrite plain_step by assumption. reflexivity. }
    destruct Hacc as (a & n & -> & Ha & Hn). exists (c :: a), n. repeat split; try assumption. now constructor.
Qed.

Lemma norm_comps_good abs comps : forall acc,
  (forall c, In c comps -> ~ In 47 c) -> Forall (fun c => c <> [] /\ ~ In 47 c) acc ->
  Forall (fun c => c <> [] /\ ~ In 47 c) (norm_comps abs comps acc).
Proof.
  induction comps as [|c cs IH]; intros acc Hs Ha; cbn [norm_comps]; [now apply Forall_rev|].
  assert (Hs' : forall c, In c cs -> ~ In 47 c) by (intros x Hx; apply Hs; now right).
  destruct (teqb c [] || teqb c DOT) eqn:E0; [now apply IH|].
  assert (c <> []) by (apply orb_false_elim in E0 as [E0 _]; now apply teqb_neq).
  match goal with |- Forall _ (if ?x then _ else _) => destruct x end.
  - apply IH; [assumption|]. constructor; [|assumption]. split; [assumption|apply Hs; now left].
  - destruct acc as [|a acc]; apply IH; try assumption. now inversion Ha.
Qed.
Lemma joined_no_sep c cs t : joined [c] cs t -> forall x, In x cs -> ~ In c x.
Proof.
  induction 1 as [w H|w s cs t H Hs Hj IH]; intros x Hx.
  - destruct Hx as [<-|[]]. apply H. now left.
  - destruct Hx as [<-|Hx]; [apply H; now left|now apply IH].
Qed.
Lemma split_no_sep c t x : In x (split c t) -> ~ In c x.
Proof. apply joined_no_sep with (t := t). apply split_joined. Qed.
Lemma split_join_nosep cs : cs <> [] -> (forall c, In c cs -> ~ In 47 c) -> split 47 (join SLASH cs) = cs.
Proof.
  intros Hne Hs. induction cs as [|c cs IH]; [congruence|]. destruct cs as [|c' cs].
  - cbn. apply split_nosep. apply Hs. now left.
  - change (join SLASH (c :: c' :: cs)) with (c ++ 47 :: join SLASH (c' :: cs)).
    rewrite split_app_sep by (apply Hs; now left). rewrite IH; [reflexivity|discriminate|].
    intros x Hx. apply Hs. now right.
Qed.
Lemma walk_slashes w i t : walk w (split 47 (repN i SLASH ++ t)) = walk w (split 47 t).
Proof.
  unfold repN. induction (N.to_nat i) as [|n IH]; [reflexivity|]. cbn [repeat app].
  change (SLASH :: repeat SLASH n ++ t) with ([] ++ 47 :: (repeat SLASH n ++ t)).
  rewrite split_app_sep by intros []. unfold walk in *. cbn [fold_left]. exact IH.
Qed.
Lemma denotes_split cwd p r : denotes cwd p r <->
  r = walk (if first_is 47 p then [] else cwd) (split 47 p).
Proof.
  unfold denotes, first_is. split.
  - intros (cs & Hj & ->). apply joined_split in Hj. subst cs. now destruct p.
  - intros ->. exists (split 47 p). split; [apply split_joined|]. now destruct p.
Qed.
Theorem normpath_denotes cwd p r : denotes cwd (normpath p) r <-> denotes cwd p r.
Proof.
  rewrite !denotes_split. destruct p as [|x p]; [reflexivity|]. unfold normpath.
  set (P := x :: p). set (i := initial_slashes P).
  assert (Hi : (0 <? i) = first_is 47 P).
  { unfold i, initial_slashes, first_is, P, SLASH. destruct p as [|y [|z p]]; destruct (x =? 47); try reflexivity.
    - now destruct (y =? 47).
    - now destruct ((y =? 47) && negb (z =? 47)). }
  set (ncs := norm_comps (0 <? i) (split SLASH P) []) in *.
  assert (Hg : Forall (fun c => c <> [] /\ ~ In 47 c) ncs)
    by exact (norm_comps_good (0 <? i) (split SLASH P) [] (split_no_sep 47 P) (Forall_nil _)).
  assert (Hw : forall w, ((0 <? i) = true -> w = []) -> walk w ncs = walk w (split 47 P)).
  { intros w Hw. unfold ncs. rewrite norm_comps_walk; [reflexivity|assumption|exists [], O; auto|apply (split_no_sep 47)]. }
  clearbody ncs. set (q := repN i SLASH ++ join SLASH ncs).
  assert (Hf : first_is 47 (match q with [] => DOT | _ => q end) = first_is 47 P).
  { rewrite <- Hi. unfold q. destruct (N.ltb_spec 0 i) as [H|H].
    - rewrite <- (N.succ_pred i) by lia. rewrite repN_succ. reflexivity.
    - replace i with 0 by lia. rewrite repN_0. cbn [app]. destruct ncs as [|c ncs]; [reflexivity|].
      pose proof (Forall_inv Hg) as [Hc1 Hc2]. destruct c as [|y c]; [now destruct Hc1|].
      assert (Hy : (y =? 47) = false) by (apply N.eqb_neq; intros ->; apply Hc2; now left).
      destruct ncs; cbn; now rewrite Hy. }
  assert (Hs : forall w, walk w (split 47 (match q with [] => DOT | _ => q end)) = walk w ncs).
  { intros w. assert (Hq : walk w (split 47 q) = walk w ncs).
    { unfold q. rewrite walk_slashes. destruct ncs as [|c cs]; [reflexivity|].
      rewrite split_join_nosep; [reflexivity|discriminate|]. intros y Hy.
      rewrite Forall_forall in Hg. now apply Hg. }
    destruct q; [|exact Hq]. rewrite <- Hq. reflexivity. }
  rewrite Hf, Hs, Hw; [reflexivity|]. rewrite Hi. intros ->. reflexivity.
Qed.
(** a path in normal form is left alone *)
Lemma norm_comps_plain abs cs : forall acc, Forall plain cs -> norm_comps abs cs acc = rev acc ++ cs.
Proof.
  induction cs as [|c cs IH]; intros acc Hp; cbn [norm_comps]; [now rewrite app_nil_r|].
  inversion Hp as [|? ? Hc Hcs]; subst. pose proof Hc as (H1 & H2 & H3 & _). apply teqb_neq in H1, H2, H3.
  fold DOT in H2. fold DOTDOT in H3. rewrite H1, H2, H3. cbn [orb negb]. rewrite IH by assumption.
  cbn [rev]. now rewrite <- app_assoc.
Qed.
Lemma normpath_normal cs p : below cs p -> normpath (47 :: p) = 47 :: p /\ normpath p = p.
Proof.
  intros (Hne & Hp & Hj). assert (E : join SLASH cs = p) by (eapply joined_det; [apply join_joined; assumption|exact Hj]).
  pose proof (joined_split _ _ _ Hj) as Es.
  assert (Hf : first_is 47 p = false) by (apply (first_is_joined cs); repeat split; assumption).
  assert (Hpne : p <> []).
  { intros ->. cbn in Es. subst cs. inversion Hp as [|? ? Hx _]; subst. now destruct Hx. }
  destruct p as [|x p]; [congruence|]. cbn [first_is] in Hf. split.
  - unfold normpath. assert (Ei : initial_slashes (47 :: x :: p) = 1).
    { unfold initial_slashes, SLASH. cbn. destruct p; now rewrite Hf. }
    rewrite Ei. change (0 <? 1) with true. change (47 :: x :: p) with ([] ++ 47 :: x :: p).
    unfold SLASH. rewrite split_app_sep by intros []. rewrite <- Es. cbn [norm_comps]. 
    replace (teqb [] [] || teqb [] DOT) with true by reflexivity. rewrite norm_comps_plain by assumption.
    cbn [rev app]. fold SLASH. rewrite E. reflexivity.
  - unfold normpath. assert (Ei : initial_slashes (x :: p) = 0).
    { unfold initial_slashes, SLASH. rewrite Hf. now destruct p as [|? [|? ?]]. }
    rewrite Ei. unfold SLASH. rewrite <- Es, norm_comps_plain by assumption. rewrite repN_0.
    cbn [rev app]. fold SLASH. now rewrite E.
Qed.

(** ** Where files are extracted *)
Lemma base_of_basename cs p : below cs p -> base_of p (basename p).
Proof.
  intros H. destruct (basename_below cs p H) as (c & E & Hc & l & El). rewrite E. exists l. now rewrite <- El.
Qed.
Lemma base_of_det p b : base_of p b -> b = basename p /\ plain b.
Proof.
  intros (cs & H). destruct (basename_below _ p H) as (c & E & Hc & l & El).
  apply app_inj_tail in El as [_ ->]. now rewrite E.
Qed.
Lemma plain_below c : plain c -> below [c] c.
Proof.
  intros H. repeat split; [discriminate|now constructor|]. constructor. intros s [<-|[]]. apply H.
Qed.
Theorem opath_spec name paths folder out :
  opath name paths folder = Ok out <-> target paths (normpath folder) name out.
Proof.
  unfold opath, target. split.
  - destruct (srr_os_file_name name) as [p|] eqn:E; cbn [bind]; [|discriminate].
    apply srr_os_file_name_spec in E. intros H. apply ok_inj in H. exists p. split; [assumption|].
    destruct E as (cs & _ & Hb). destruct paths.
    + subst out. now apply pjoin_folder with (cs := cs).
    + exists (basename p). split; [now apply base_of_basename with (cs := cs)|]. subst out.
      destruct (basename_below cs p Hb) as (c & E & Hc & _). rewrite E.
      apply pjoin_folder with (cs := [c]). now apply plain_below.
  - intros (p & Hp & H). pose proof Hp as (cs & _ & Hb). apply srr_os_file_name_spec in Hp. rewrite Hp.
    cbn [bind]. f_equal. destruct paths.
    + subst out. now apply pjoin_folder with (cs := cs).
    + destruct H as (b & Hbo & ->). apply base_of_det in Hbo as [-> Hpl].
      apply pjoin_folder with (cs := [basename p]). now apply plain_below.
Qed.
Lemma opath_err name paths folder e : opath name paths folder = Err e -> e = ValueError /\ forall p, ~ srr_path name p.
Proof.
  unfold opath. destruct (srr_os_file_name name) as [p|x] eqn:E; cbn [bind]; [discriminate|].
  intros H. injection H as ->. split; [now apply joinpath_err in E|].
  intros p Hp. apply srr_os_file_name_spec in Hp. congruence.
Qed.
Lemma target_inside paths folder name out : target paths folder name out ->
  exists cs p, below cs p /\ out = in_folder folder p.
Proof.
  intros (p & (cs & _ & Hb) & H). destruct paths; [now exists cs, p|].
  destruct H as (b & Hbo & ->). apply base_of_det in Hbo as [-> Hpl]. exists [basename p], (basename p).
  split; [now apply plain_below|reflexivity].
Qed.

Lemma rev_in_folder out p : in_folder out p = out ++ p \/ in_folder out p = out ++ 47 :: p.
Proof.
  unfold in_folder. destruct (rev out) eqn:E; [|destruct (n =? 47); auto].
  left. apply (f_equal (@rev N)) in E. rewrite rev_involutive in E. now rewrite E.
Qed.
Lemma basename_in_folder out cs p : below cs p -> basename (in_folder out p) = basename p.
Proof.
  intros Hb. destruct (basename_below cs p Hb) as (c & E & Hc & l & El). rewrite E.
  assert (Hx : exists d, p = d ++ c /\ (d = [] \/ exists d', d = d' ++ [47])).
  { destruct Hb as (_ & _ & Hj). clear E. revert l El. induction Hj as [w Hw|w s cs t Hw Hs Hj IH]; intros l El.
    - destruct l as [|? [|? ?]]; cbn in El; inversion El; subst. exists []. auto.
    - destruct l as [|w' l]; cbn in El; inversion El; subst; [now apply joined_nonempty in Hj|].
      destruct (IH _ eq_refl) as (d & -> & Hd). destruct Hs as [<-|[]].
      exists (w' ++ 47 :: d). split; [rewrite <- app_assoc; reflexivity|]. right.
      destruct Hd as [->|(d' & ->)]; [now exists w'|]. exists (w' ++ 47 :: d').
      rewrite <- app_assoc. reflexivity. }
  destruct Hx as (d & -> & Hd). destruct Hc as (_ & _ & _ & Hn).
  unfold in_folder. destruct (rev out) as [|x r] eqn:Er.
  - apply (f_equal (@rev N)) in Er. rewrite rev_involutive in Er. cbn in Er. subst out.
    destruct Hd as [->|(d' & ->)]; [now apply basename_nosep|]. rewrite <- app_assoc. now apply basename_sep.
  - destruct (N.eqb_spec x 47) as [->|Hx].
    + apply (f_equal (@rev N)) in Er. rewrite rev_involutive in Er. cbn [rev] in Er. subst out.
      destruct Hd as [->|(d' & ->)].
      * cbn [app]. rewrite <- app_assoc. cbn [app]. now apply basename_sep.
      * replace ((rev r ++ [47]) ++ (d' ++ [47]) ++ c) with ((rev r ++ 47 :: d') ++ 47 :: c)
          by (repeat rewrite <- app_assoc; reflexivity). now apply basename_sep.
    + destruct Hd as [->|(d' & ->)]; [now apply basename_sep|].
      replace (out ++ 47 :: (d' ++ [47]) ++ c) with ((out ++ 47 :: d') ++ 47 :: c)
        by (repeat rewrite <- app_assoc; reflexivity). now apply basename_sep.
Qed.

(** ** Which files are extracted *)
Lemma norm_comps_shape abs comps : forall acc,
  acc_ok abs acc -> (forall c, In c comps -> ~ In 47 c) -> acc_ok abs (rev (norm_comps abs comps acc)).
Proof.
  induction comps as [|c cs IH]; intros acc Ha Hs; cbn [norm_comps]; [now rewrite rev_involutive|].
  assert (Hs' : forall c, In c cs -> ~ In 47 c) by (intros x Hx; apply Hs; now right).
  destruct (teqb c [] || teqb c DOT) eqn:E0; [now apply IH|]. apply orb_false_elim in E0 as [E1 E2].
  destruct Ha as (a & n & -> & Ha & Hn).
  destruct (teqb c DOTDOT) eqn:E3; cbn [negb orb].
  - apply teqb_eq in E3. subst c. destruct a as [|x a].
    + destruct n as [|n]; cbn [app repeat].
      * destruct abs; cbn [negb andb orb]; apply IH; try assumption.
        -- exists [], O. auto.
        -- exists [], 1%nat. repeat split; [constructor|discriminate].
      * destruct abs; [specialize (Hn eq_refl); discriminate|]. cbn [negb andb orb].
        replace (teqb DOTDOT DOTDOT) with true by reflexivity. apply IH; [|assumption].
        exists [], (S (S n)). repeat split; [constructor|discriminate].
    + cbn [app]. inversion Ha as [|? ? Hx Ha']; subst.
      assert (Ex : teqb x DOTDOT = false) by (apply teqb_neq; apply Hx). rewrite Ex, andb_false_r.
      apply IH; [|assumption]. exists a, n. auto.
  - apply IH; [|assumption]. exists (c :: a), n. repeat split; try assumption. constructor; [|assumption].
    apply plain_teqb; [now apply teqb_neq| now apply teqb_neq|now apply teqb_neq|]. apply Hs. now left.
Qed.
Lemma walk_plain cs : forall w, Forall plain cs -> walk w cs = rev cs ++ w.
Proof.
  induction cs as [|c cs IH]; intros w H; [reflexivity|]. inversion H; subst. unfold walk in *. cbn [fold_left].
  rewrite plain_step by assumption. rewrite IH by assumption. cbn [rev]. now rewrite <- app_assoc.
Qed.
Lemma walk_up n : forall w, walk w (repeat DOTDOT n) = skipn n w.
Proof.
  induction n as [|n IH]; intros w; [reflexivity|]. cbn [repeat]. unfold walk in *. cbn [fold_left]. rewrite IH.
  change (step w DOTDOT) with (tl w). destruct w; [now rewrite !skipn_nil|reflexivity].
Qed.
Lemma rev_repeat {A} (x : A) n : rev (repeat x n) = repeat x n.
Proof.
  induction n as [|n IH]; [reflexivity|]. cbn [repeat rev]. rewrite IH.
  change [x] with (repeat x 1). rewrite <- repeat_app, Nat.add_comm. reflexivity.
Qed.
Lemma below_not_abs cs p : below cs p -> first_is 47 p = false.
Proof. exact (first_is_joined cs p). Qed.
Theorem normpath_is packed cs p : packed <> [] -> below cs p -> (normpath packed = p <-> same_path packed p).
Proof.
  intros Hne Hb. split.
  - intros <- cwd r. symmetry. apply normpath_denotes.
  - intros H. pose proof Hb as (Hcs & Hpl & Hj). pose proof (joined_split _ _ _ Hj) as Es.
    assert (Hw : forall cwd, walk (if first_is 47 packed then [] else cwd) (split 47 packed) = rev cs ++ cwd).
    { intros cwd. specialize (H cwd (rev cs ++ cwd)). rewrite !denotes_split in H. symmetry. apply H.
      rewrite (below_not_abs cs p Hb), <- Es. now rewrite walk_plain. }
    assert (Hf : first_is 47 packed = false).
    { destruct (first_is 47 packed); [|reflexivity]. pose proof (Hw []) as H0. pose proof (Hw [[]]) as H1.
      rewrite H0 in H1. apply app_inv_head in H1. discriminate. }
    rewrite Hf in Hw. unfold normpath. destruct packed as [|x pk]; [congruence|]. set (P := x :: pk) in *.
    assert (Hi : initial_slashes P = 0).
    { unfold P, initial_slashes, SLASH in *. cbn [first_is] in Hf. rewrite Hf. now destruct pk as [|? [|? ?]]. }
    rewrite Hi. change (0 <? 0) with false. rewrite repN_0. cbn [app].
    destruct (norm_comps_shape false (split SLASH P) []) as (a & n & E & Ha & _);
      [exists [], O; auto|apply (split_no_sep 47)|].
    apply (f_equal (@rev _)) in E. rewrite rev_involutive, rev_app_distr, rev_repeat in E.
    assert (Hn : forall cwd, a ++ skipn n cwd = rev cs ++ cwd).
    { intros cwd. rewrite <- (Hw cwd).
      transitivity (walk cwd (norm_comps false (split SLASH P) []));
        [|rewrite norm_comps_walk; [reflexivity|discriminate|exists [], O; auto|apply (split_no_sep 47)]].
      rewrite E. unfold walk. rewrite fold_left_app. fold (walk cwd (repeat DOTDOT n)).
      rewrite walk_up. fold (walk (skipn n cwd) (rev a)). rewrite walk_plain by now apply Forall_rev.
      now rewrite rev_involutive. }
    pose proof (Hn []) as H0. rewrite skipn_nil, !app_nil_r in H0. subst a.
    assert (n = O).
    { destruct n as [|n]; [reflexivity|]. specialize (Hn (repeat [] (S n))). apply app_inv_head in Hn.
      rewrite skipn_all2 in Hn; [discriminate|]. rewrite repeat_length. lia. }
    subst n. rewrite E. cbn [repeat app]. rewrite rev_involutive.
    rewrite (joined_det 47 cs (join SLASH cs) p) by (try assumption; now apply join_joined).
    destruct p; [|reflexivity]. subst cs. inversion Hpl as [|? ? [Hx _] _]; congruence.
Qed.
Lemma wants_spec packed paths folder name out osname :
  opath name paths folder = Ok out -> srr_os_file_name name = Ok osname ->
  (wants packed out osname = true <-> asked packed name out).
Proof.
  intros Ho Hs. unfold opath in Ho. rewrite Hs in Ho. cbn [bind] in Ho. apply ok_inj in Ho.
  pose proof Hs as Hs'. apply srr_os_file_name_spec in Hs' as Hp. pose proof Hp as (cs & _ & Hb).
  assert (Hbo : basename out = basename osname).
  { subst out. destruct paths.
    - rewrite (pjoin_folder _ cs) by assumption. now apply basename_in_folder with (cs := cs).
    - destruct (basename_below cs osname Hb) as (c & E & Hc & _). rewrite E.
      rewrite (pjoin_folder _ [c]) by now apply plain_below.
      rewrite (basename_in_folder _ [c]) by now apply plain_below. apply basename_nosep. apply Hc. }
  assert (Hbb : basename (basename osname) = basename osname).
  { destruct (basename_below cs osname Hb) as (c & E & Hc & _). rewrite E. apply basename_nosep. apply Hc. }
  unfold wants, asked. rewrite Hbo. rewrite !orb_true_iff, andb_true_iff, !teqb_eq. split.
  - intros [[H|[H1 H2]]|H]; exists osname; (split; [assumption|]); auto.
    + right; left. rewrite H1, H2. now apply base_of_basename with (cs := cs).
    + right; right. destruct packed as [|x pk].
      * cbn in H. subst osname. destruct Hb as (_ & Hpl & Hj). apply joined_split in Hj. cbn in Hj. subst cs.
        inversion Hpl as [|? ? Hx _]; subst. destruct Hx as (_ & Hx & _). exfalso. apply Hx. reflexivity.
      * split; [discriminate|]. now apply normpath_is with (cs := cs).
  - intros (p & Hp' & H). apply srr_os_file_name_spec in Hp'. assert (p = osname) by congruence. subst p.
    destruct H as [H|[H|[Hne H]]]; auto.
    + apply base_of_det in H as [-> _]. left; right. now rewrite Hbb.
    + right. now apply normpath_is with (cs := cs).
Qed.

(** ** Extraction *)
Lemma extract1_get srr b out f q :
  fs_get (fst (extract1 srr b out f)) q =
  match fs_get f q with Some d => Some d | None => if teqb out q then Some (srr_data srr b) else None end.
Proof.
  unfold extract1. destruct (can_overwrite f out) eqn:E; cbn [fst].
  - apply can_overwrite_true in E. rewrite fs_get_set. destruct (teqb out q) eqn:Eq.
    + apply teqb_eq in Eq. subst q. now rewrite E.
    + now destruct (fs_get f q).
  - destruct (fs_get f q) eqn:G; [reflexivity|]. destruct (teqb out q) eqn:Eq; [|reflexivity].
    apply teqb_eq in Eq. subst q. apply can_overwrite_true in G. congruence.
Qed.
Lemma extract_loop_safe srr paths folder packed bs : forall f f' e l,
  extract_loop srr paths folder packed bs f = (f', e, l) ->
  kept fs_get f f' /\ inside fs_get (normpath folder) f f'.
Proof.
  assert (refl : forall f, kept fs_get f f /\ inside fs_get (normpath folder) f f).
  { intros f. split; [intros q d H; exact H|intros q H; congruence]. }
  induction bs as [|b bs IH]; intros f f' e l H; cbn [extract_loop] in H.
  { injection H as <- _ _. apply refl. }
  assert (H' : (exists size name, b_kind b = KStored size name) \/
               (if is_stored b then (f, Some AttributeError, []) else extract_loop srr paths folder packed bs f)
               = (f', e, l)).
  { destruct (b_kind b); try (right; exact H). left. eauto. }
  destruct H' as [(size & name & Ek)|H'].
  - rewrite Ek in H. destruct (opath name paths folder) as [out|x] eqn:Eo.
    + destruct (srr_os_file_name name) as [osname|x] eqn:En; [|injection H as <- _ _; apply refl].
      destruct (wants packed out osname).
      * destruct (extract1 srr b out f) as [f1 ok] eqn:E1.
        destruct (extract_loop srr paths folder packed bs f1) as [[f2 e2] l2] eqn:E2.
        injection H as <- _ _. destruct (IH _ _ _ _ E2) as [K I].
        pose proof (extract1_get srr b out f) as G. rewrite E1 in G. cbn [fst] in G. split.
        -- intros q d Hq. apply K. now rewrite G, Hq.
        -- intros q Hq. specialize (G q). destruct (option_map (fun _ => tt) (fs_get f q)) eqn:Z.
           ++ destruct (fs_get f q) as [d|] eqn:Fq; [|discriminate]. exfalso. apply Hq. apply K. rewrite G. reflexivity.
           ++ destruct (fs_get f q) as [d|] eqn:Fq; [discriminate|].
              destruct (teqb out q) eqn:Eq.
              ** apply teqb_eq in Eq. subst q. apply opath_spec in Eo. now apply target_inside in Eo.
              ** apply I. rewrite G. exact Hq.
      * eapply IH; exact H.
    + injection H as <- _ _. apply refl.
  - destruct (is_stored b); [injection H' as <- _ _; apply refl|]. eapply IH; exact H'.
Qed.
Theorem extract_safe srr paths folder packed f f' e l :
  extract_files srr paths folder packed f = (f', e, l) ->
  kept fs_get f f' /\ inside fs_get (normpath folder) f f'.
Proof.
  unfold extract_files. destruct (read_all srr); [apply extract_loop_safe|].
  intros H. injection H as <- _ _. split; [intros q d Hq; exact Hq|intros q Hq; congruence].
Qed.

Lemma stored_files_cons i l :
  stored_files (i :: l) = match i with SStored _ _ n d _ => [(n, d)] | _ => [] end ++ stored_files l.
Proof. reflexivity. Qed.
Lemma extract_items paths folder packed l : forall pre f f' e r,
  Forall sitem_ok l ->
  extract_loop (pre ++ ser_srr l) paths folder packed (sblks (lenN pre) l) f = (f', e, r) ->
  match e with
  | None => exists o, extracted paths (normpath folder) (asked packed) (stored_files l) o /\ map fst r = map fst o /\
      forall q, fs_get f' q = match fs_get f q with Some d => Some d | None => first_for q o end
  | Some x => x = ValueError /\ exists n, In n (stored_names l) /\ forall p, ~ srr_path n p
  end.
Proof.
  induction l as [|i l IH]; intros pre f f' e r Hok H; cbn [sblks extract_loop] in H.
  { injection H as <- <- <-. exists []. repeat split; [constructor|]. intros q. now destruct (fs_get f q). }
  inversion Hok as [|? ? Hi Hl]; subst.
  assert (Epos : lenN pre + lenN (ser_sitem i) = lenN (pre ++ ser_sitem i)) by now rewrite lenN_app.
  assert (Efile : pre ++ ser_srr (i :: l) = (pre ++ ser_sitem i) ++ ser_srr l)
    by (rewrite ser_srr_cons, app_assoc; reflexivity).
  rewrite Epos in H.
  assert (Hskip : stored_files (i :: l) = stored_files l -> stored_names (i :: l) = stored_names l ->
    extract_loop (pre ++ ser_srr (i :: l)) paths folder packed (sblks (lenN (pre ++ ser_sitem i)) l) f = (f', e, r) ->
    match e with
    | None => exists o, extracted paths (normpath folder) (asked packed) (stored_files (i :: l)) o /\ map fst r = map fst o /\
        forall q, fs_get f' q = match fs_get f q with Some d => Some d | None => first_for q o end
    | Some x => x = ValueError /\ exists n, In n (stored_names (i :: l)) /\ forall p, ~ srr_path n p
    end).
  { intros E1 E2 H'. rewrite E1, E2. rewrite Efile in H'. eapply IH; [assumption|exact H']. }
  destruct (is_sstored i) eqn:Es.
  - destruct i as [|c fl n d ex| | | |]; try discriminate. clear Hskip.
    set (b := sblk (lenN pre) (SStored c fl n d ex)) in *.
    change (b_kind b) with (KStored (lenN d) n) in H. cbv iota beta in H.
    change (stored_names (SStored c fl n d ex :: l)) with (n :: stored_names l).
    change (stored_files (SStored c fl n d ex :: l)) with ((n, d) :: stored_files l).
    destruct (opath n paths folder) as [out|x] eqn:Eo.
    2:{ injection H as <- <- <-. apply opath_err in Eo as [-> Hno]. split; [reflexivity|]. exists n. split; [now left|assumption]. }
    pose proof Eo as Ht. apply opath_spec in Ht.
    destruct (srr_os_file_name n) as [osname|x] eqn:En; [|unfold opath in Eo; rewrite En in Eo; discriminate].
    pose proof (wants_spec packed paths folder n out osname Eo En) as Hw.
    destruct (wants packed out osname).
    + destruct (extract1 _ b out f) as [f1 ok] eqn:E1.
      destruct (extract_loop _ paths folder packed _ f1) as [[f2 e2] r2] eqn:E2.
      injection H as <- <- <-. rewrite Efile in E2. apply IH in E2; [|assumption].
      destruct e2 as [x|].
      * destruct E2 as (-> & m & Hm & Hn). split; [reflexivity|]. exists m. split; [now right|assumption].
      * destruct E2 as (o & He & Hr & Hg). exists ((out, d) :: o). split; [|split].
        -- constructor; [assumption|now apply Hw|assumption].
        -- cbn [map fst]. now rewrite Hr.
        -- intros q. rewrite Hg. pose proof (extract1_get (pre ++ ser_srr (SStored c fl n d ex :: l)) b out f q) as G.
           rewrite E1 in G. cbn [fst] in G. rewrite G. cbn [first_for].
           destruct (fs_get f q); [reflexivity|]. unfold b. rewrite ser_srr_cons.
           rewrite srr_data_sblk. destruct (text_dec out q) as [->|Hne]; [now rewrite teqb_refl|].
           apply teqb_neq in Hne. now rewrite Hne.
    + rewrite Efile in H. apply IH in H; [|assumption]. destruct e as [x|].
      * destruct H as (-> & m & Hm & Hn). split; [reflexivity|]. exists m. split; [now right|assumption].
      * destruct H as (o & He & Hr & Hg). exists o. split; [|split; assumption].
        apply ext_skip with (out := out); [assumption| |assumption]. intros Ha. apply Hw in Ha. discriminate.
  - apply Hskip; [destruct i; try reflexivity; discriminate|destruct i; try reflexivity; discriminate|].
    pose proof (is_stored_sblk (lenN pre) i Hi) as Est. rewrite Es in Est. rewrite Est in H.
    destruct i; try discriminate; try exact H.
    cbn [sblk b_kind s_kind] in H. destruct (head_kind hd) eqn:Ek; try exact H.
    exfalso. revert Ek. clear. unfold head_kind. destruct hd; try discriminate. destruct body; [discriminate|].
    destruct (ty =? 0x73); [discriminate|]. destruct (ty =? 0x7B); discriminate.
Qed.
Theorem extract_thm l paths folder packed f f' e r :
  srr_ok l ->
  extract_files (ser_srr l) paths folder packed f = (f', e, r) ->
  match e with
  | None => exists o, extracted paths (normpath folder) (asked packed) (stored_files l) o /\ map fst r = map fst o /\
      forall q, fs_get f' q = match fs_get f q with Some d => Some d | None => first_for q o end
  | Some x => x = ValueError /\ exists n, In n (stored_names l) /\ forall p, ~ srr_path n p
  end.
Proof.
  intros Hl H. unfold extract_files in H. rewrite read_all_srr in H by assumption.
  apply (extract_items paths folder packed l [] f f' e r); [apply Hl|exact H].
Qed.
