(** MsgFacts: an invariant of the two threads with a ghost list of the messages put in the list in time. *)
From Verif Require Import Base BaseFacts Msg MsgSpec.

Section F.
Variables (ms : list N) (all : bool).
Notation disp := (display ms all).
Notation stp := (step ms all).
Notation rn := (run ms all).

(** the message of the next step of the reporter, if it is put in time *)
Definition keeps (s : st) : list event :=
  match prog s, held s with
  | Emit e :: _, Some r => if Nat.eqb r (cur s) then match cpc s with CReset => [] | _ => [e] end else []
  | _, _ => []
  end.
Definition appends (s : st) : list event :=
  match prog s, held s with Emit e :: _, Some r => [e] | _, _ => [] end.
Fixpoint kept (s : st) (sch : list bool) : list event :=
  match sch with
  | [] => []
  | b :: sch => (if b then [] else keeps s) ++ kept (stp s b) sch
  end.
Lemma run_cons s b sch : rn s (b :: sch) = rn (stp s b) sch. Proof. reflexivity. Qed.
Lemma kept_app s a b : kept s (a ++ b) = kept s a ++ kept (rn s a) b.
Proof. revert s. induction a as [|x a IH]; intros s; [reflexivity|]. cbn [app kept]. rewrite IH, app_assoc, run_cons. reflexivity. Qed.
Lemma run_app s a b : rn s (a ++ b) = rn (rn s a) b. Proof. apply fold_left_app. Qed.

(** lists *)
Lemma append_len ls r e : length (append_at ls r e) = length ls.
Proof. revert r. induction ls as [|l ls IH]; intros [|r]; cbn; auto. Qed.
Lemma append_same ls r e : (r < length ls)%nat -> nth r (append_at ls r e) [] = nth r ls [] ++ [e].
Proof. revert r. induction ls as [|l ls IH]; intros [|r] H; cbn [length] in H; cbn [append_at nth]; try lia; [reflexivity|]. apply IH. lia. Qed.
Lemma append_other ls r q e : r <> q -> nth q (append_at ls r e) [] = nth q ls [].
Proof. revert r q. induction ls as [|l ls IH]; intros [|r] [|q] H; cbn [append_at nth]; try reflexivity; try lia. apply IH. lia. Qed.

(** ** The invariant *)
Definition inv (K : list event) (s : st) : Prop :=
  lists s <> [] /\ (match held s with Some r => r <= cur s | None => True end)%nat /\
  exists S0 L1 late k, nth_list s (cur s) = L1 ++ late /\ S0 ++ L1 = K /\ out s = flat_map disp (S0 ++ firstn k L1) /\
  match cpc s with
  | CFor r i => r = cur s /\ k = i /\ (i <= length L1)%nat /\ late = []
  | CReset => k = length L1
  | _ => k = O /\ late = []
  end.
Lemma inv_start p : inv [] (start p).
Proof. split; [discriminate|]. split; [exact I|]. exists [], [], [], O. repeat split. Qed.
Lemma inv_pc K s p : (match cpc s with CFor _ _ | CReset => False | _ => True end) -> (match p with CFor _ _ | CReset => False | _ => True end) -> inv K s -> inv K (set_pc s p).
Proof.
  intros H1 H2 (A & B & S0 & L1 & late & k & E1 & E2 & E3 & E4). split; [exact A|]. split; [exact B|]. exists S0, L1, late, k.
  split; [exact E1|]. split; [exact E2|]. split; [exact E3|]. cbn [set_pc cpc]. destruct (cpc s); try contradiction; destruct p; try contradiction; exact E4.
Qed.
Lemma inv_c K s : inv K s -> inv K (stp s true).
Proof.
  intros Hi. unfold step. unfold cstep. destruct (cpc s) eqn:Ec.
  - apply inv_pc; [rewrite Ec; exact I|destruct (done s); exact I|exact Hi].
  - apply inv_pc; [rewrite Ec; exact I|destruct (nth_list s (cur s)); exact I|exact Hi].
  - apply inv_pc; [rewrite Ec; exact I|destruct (nth_list s (cur s)); exact I|exact Hi].
  - destruct Hi as (A & B & S0 & L1 & late & k & E1 & E2 & E3 & E4). rewrite Ec in E4. destruct E4 as [-> ->].
    split; [exact A|]. split; [exact B|]. exists S0, L1, [], O. cbn [set_pc cpc]. split; [exact E1|]. split; [exact E2|]. split; [exact E3|]. split; [reflexivity|]. split; [reflexivity|]. split; [lia|reflexivity].
  - destruct Hi as (A & B & S0 & L1 & late & k & E1 & E2 & E3 & E4). rewrite Ec in E4. destruct E4 as (-> & -> & Hle & ->). rewrite app_nil_r in E1. rewrite E1.
    destruct (nth_error L1 i) as [e|] eqn:En.
    + split; [exact A|]. split; [exact B|]. exists S0, L1, [], (S i). cbn [cpc out]. split; [now rewrite app_nil_r|]. split; [exact E2|]. split.
      * rewrite E3. assert (F : firstn (S i) L1 = firstn i L1 ++ [e]).
        { clear -En. revert i En. induction L1 as [|x L IH]; intros [|i] En; try discriminate; [injection En as ->; reflexivity|]. cbn [firstn app]. f_equal. now apply IH. }
        rewrite F, app_assoc, !flat_map_app. cbn [flat_map]. now rewrite app_nil_r.
      * split; [reflexivity|]. split; [reflexivity|]. split; [|reflexivity]. apply nth_error_Some. congruence.
    + apply nth_error_None in En. split; [exact A|]. split; [exact B|]. exists S0, L1, [], i. cbn [set_pc cpc out]. split; [now rewrite app_nil_r|]. split; [exact E2|]. split; [exact E3|]. lia.
  - destruct Hi as (A & B & S0 & L1 & late & k & E1 & E2 & E3 & E4). rewrite Ec in E4. subst k. split; [cbn [lists]; now destruct (lists s)|]. split.
    + destruct (held s); cbn [held lists cur]; [|exact I]. unfold cur in *. cbn [lists]. rewrite app_length. cbn [length]. lia.
    + exists K, [], [], O. cbn [cpc out lists]. split.
      * unfold nth_list, cur. cbn [lists]. rewrite app_length. cbn [length]. replace (length (lists s) + 1 - 1)%nat with (length (lists s)) by lia. now rewrite app_nth2, Nat.sub_diag by lia.
      * split; [apply app_nil_r|]. split; [|auto]. rewrite E3, firstn_all, E2. cbn [firstn]. now rewrite app_nil_r.
  - apply inv_pc; [rewrite Ec; exact I|exact I|exact Hi].
  - exact Hi.
Qed.
Lemma cur_append s r e p h d o : cur (mkSt (append_at (lists s) r e) (cpc s) p h d o) = cur s.
Proof. unfold cur. cbn [lists]. now rewrite append_len. Qed.
Lemma inv_p K s : inv K s -> inv (K ++ keeps s) (stp s false).
Proof.
  intros Hi. unfold step, pstep, keeps. destruct (prog s) as [|[e| |] p] eqn:Ep.
  - now rewrite app_nil_r.
  - destruct (held s) as [r|] eqn:Eh.
    + destruct Hi as (A & B & S0 & L1 & late & k & E1 & E2 & E3 & E4). rewrite Eh in B.
      assert (Hc : (cur s < length (lists s))%nat) by (unfold cur; destruct (lists s); [contradiction|cbn [length]; lia]).
      split; [cbn [lists]; intros X; apply (f_equal (@length _)) in X; rewrite append_len in X; destruct (lists s); [contradiction|discriminate]|].
      split; [exact I|]. rewrite !cur_append. unfold nth_list. cbn [lists cpc out].
      destruct (Nat.eqb_spec r (cur s)) as [->|Hne].
      * rewrite append_same by exact Hc. fold (nth_list s (cur s)). rewrite E1.
        assert (G : (match cpc s with CReset => False | _ => True end) -> late = [] ->
           exists S1 L2 lt q, (L1 ++ late) ++ [e] = L2 ++ lt /\ S1 ++ L2 = K ++ [e] /\ out s = flat_map disp (S1 ++ firstn q L2) /\
             match cpc s with CFor r i => r = cur s /\ q = i /\ (i <= length L2)%nat /\ lt = [] | CReset => q = length L2 | _ => q = O /\ lt = [] end).
        { intros Hn ->. exists S0, (L1 ++ [e]), [], k. split; [now rewrite !app_nil_r|]. split; [rewrite app_assoc, E2; reflexivity|].
          assert (Hk : (k <= length L1)%nat) by (destruct (cpc s); try contradiction; intuition lia).
          split. { rewrite firstn_app. replace (k - length L1)%nat with O by lia. cbn [firstn]. now rewrite app_nil_r. }
          destruct (cpc s); try contradiction; try tauto. rewrite app_length. intuition lia. }
        destruct (cpc s) eqn:Ec; try (apply G; [exact I|tauto]). rewrite app_nil_r. exists S0, L1, (late ++ [e]), k. split; [now rewrite app_assoc|]. auto.
      * rewrite append_other by exact Hne. rewrite app_nil_r. exists S0, L1, late, k. auto.
    + rewrite app_nil_r. destruct Hi as (A & B & X). split; [exact A|]. split; [cbn [held]; unfold cur; cbn [lists]; lia|exact X].
  - rewrite app_nil_r. destruct (nth_list s (cur s)) eqn:En; [|exact Hi]. destruct Hi as (A & B & X). split; [exact A|]. split; [exact B|exact X].
  - rewrite app_nil_r. destruct Hi as (A & B & X). split; [exact A|]. split; [exact B|exact X].
Qed.
Lemma inv_run sch : forall K s, inv K s -> inv (K ++ kept s sch) (rn s sch).
Proof.
  induction sch as [|b sch IH]; intros K s Hi; [cbn [kept]; now rewrite app_nil_r|]. rewrite run_cons. cbn [kept]. rewrite app_assoc. apply IH.
  destruct b; [rewrite app_nil_r; now apply inv_c|now apply inv_p].
Qed.

(** ** Messages not put yet *)
Lemma prog_c s : prog (stp s true) = prog s.
Proof.
  unfold step, cstep. destruct (cpc s); try reflexivity. destruct (nth_error _ _); reflexivity.
Qed.
Lemma prog_p s : emitted (prog s) = appends s ++ emitted (prog (stp s false)).
Proof.
  unfold appends, step, pstep. destruct (prog s) as [|[e| |] p] eqn:Ep; cbn [prog emitted]; try (now rewrite ?Ep).
  - destruct (held s); cbn [prog]; rewrite ?Ep; reflexivity.
  - destruct (nth_list s (cur s)); cbn [prog]; rewrite ?Ep; reflexivity.
Qed.
Lemma sub_refl {A} (l : list A) : subseq l l. Proof. induction l; constructor; auto. Qed.
Lemma sub_app {A} (a b c d : list A) : subseq a b -> subseq c d -> subseq (a ++ c) (b ++ d).
Proof. induction 1; intros Hc; cbn; [exact Hc|constructor; auto|constructor; auto]. Qed.
Lemma sub_nil_l {A} (l : list A) : subseq [] l. Proof. induction l; constructor; auto. Qed.
Lemma keeps_sub s : subseq (keeps s) (appends s).
Proof.
  unfold keeps, appends. destruct (prog s) as [|[e| |] p]; try constructor. destruct (held s); [|constructor].
  destruct (Nat.eqb _ _); [|apply sub_nil_l]. destruct (cpc s); try apply sub_refl. apply sub_nil_l.
Qed.
Lemma kept_sub sch : forall s, subseq (kept s sch ++ emitted (prog (rn s sch))) (emitted (prog s)).
Proof.
  induction sch as [|b sch IH]; intros s; [apply sub_refl|]. rewrite run_cons. cbn [kept]. rewrite <- app_assoc. destruct b.
  - cbn [app]. specialize (IH (stp s true)). now rewrite prog_c in IH.
  - rewrite (prog_p s). apply sub_app; [apply keeps_sub|apply IH].
Qed.
Lemma keeps_all s : ~ too_late s -> keeps s = appends s.
Proof.
  intros H. unfold keeps, appends. unfold too_late in H. destruct (prog s) as [|[e| |] p]; try reflexivity. destruct (held s) as [r|]; [|reflexivity].
  destruct (Nat.eqb_spec r (cur s)) as [->|Hn].
  - destruct (cpc s) eqn:Ec; try reflexivity. destruct H. exists e, p, (cur s). auto.
  - destruct H. exists e, p, r. auto.
Qed.
Lemma kept_all sch : forall s, in_time ms all s sch -> kept s sch ++ emitted (prog (rn s sch)) = emitted (prog s).
Proof.
  induction sch as [|b sch IH]; intros s H; [reflexivity|]. cbn [in_time] in H. destruct H as [H1 H2]. rewrite run_cons. cbn [kept]. rewrite <- app_assoc, (IH _ H2). destruct b.
  - cbn [app]. now rewrite prog_c.
  - rewrite keeps_all by now apply H1. symmetry. apply prog_p.
Qed.

(** ** The end of the thread *)
Definition ended (s : st) : Prop :=
  (exists q, prog s = q ++ [SetDone] /\ no_stop q /\ done s = false \/ prog s = [] /\ done s = true) /\
  (cpc s = CWhile2 -> done s = true) /\ (cpc s = CEnd -> done s = true /\ nth_list s (cur s) = []).
Lemma ended_step s b : ended s -> ended (stp s b).
Proof.
  intros ((q & Hp) & Hw & He). destruct b.
  - assert (P : prog (stp s true) = prog s) by apply prog_c.
    assert (D : done (stp s true) = done s). { unfold step, cstep. destruct (cpc s); try reflexivity. destruct (nth_error _ _); reflexivity. }
    split; [exists q; now rewrite P, D|]. rewrite D. unfold step, cstep. destruct (cpc s) eqn:Ec; cbn [set_pc cpc].
    + destruct (done s); split; intros X; try discriminate X; reflexivity.
    + destruct (nth_list s (cur s)) eqn:En; split; intros X; try discriminate X. split; [now apply Hw|exact En].
    + destruct (nth_list s (cur s)) eqn:En; split; intros X; discriminate X.
    + split; intros X; discriminate X.
    + destruct (nth_error _ _); split; intros X; discriminate X.
    + split; intros X; discriminate X.
    + split; intros X; discriminate X.
    + rewrite Ec. split; [discriminate|exact He].
  - destruct Hp as [(Hp & Hq & Hd)|(Hp & Hd)].
    + assert (N1 : cpc s <> CWhile2) by (intros X; rewrite (Hw X) in Hd; discriminate). assert (N2 : cpc s <> CEnd) by (intros X; destruct (He X); congruence).
      unfold step, pstep. destruct q as [|[e| |] q]; cbn [app] in Hp; rewrite Hp.
      * split; [exists []; right; auto|]. cbn [cpc done]. split; [reflexivity|]. intros X. contradiction.
      * assert (Hq' : no_stop q) by (intros X; apply Hq; now right).
        destruct (held s).
        -- split; [exists q; left; auto|]. cbn [cpc]. split; intros X; contradiction.
        -- split; [exists (Emit e :: q); left; auto|]. cbn [cpc]. split; intros X; contradiction.
      * assert (Hq' : no_stop q) by (intros X; apply Hq; now right).
        destruct (nth_list s (cur s)); [|split; [exists (Wait :: q); left; auto|split; intros X; contradiction]].
        split; [exists q; left; cbn [prog done]; auto|]. cbn [cpc]. split; intros X; contradiction.
      * destruct Hq. now left.
    + unfold step, pstep. rewrite Hp. split; [exists []; right; auto|auto].
Qed.
Lemma ended_run sch : forall s, ended s -> ended (rn s sch).
Proof. induction sch as [|b sch IH]; intros s H; [exact H|]. rewrite run_cons. now apply IH, ended_step. Qed.
Lemma ended_start p : no_stop p -> ended (start (whole p)).
Proof. intros H. split; [exists p; left; auto|]. split; discriminate. Qed.
Lemma emitted_whole p : emitted (whole p) = emitted p.
Proof. unfold whole. induction p as [|[e| |] p IH]; cbn [emitted app]; try reflexivity; congruence. Qed.

(** ** Lines *)
Lemma display_spec e : exists k : bool, (k = true <-> In (e_code e) ms \/ all = true) /\
  disp e = if k then [(if existsb (N.eqb (e_code e)) informative then Stdout else Stderr, e_message e)] else [].
Proof.
  exists (existsb (N.eqb (e_code e)) ms || all)%bool. split; [|reflexivity].
  rewrite orb_true_iff. assert (E : existsb (N.eqb (e_code e)) ms = true <-> In (e_code e) ms); [|tauto].
  rewrite existsb_exists. split; [intros (x & Hx & X); apply N.eqb_eq in X; now rewrite X|]. intros H. exists (e_code e). split; [exact H|apply N.eqb_refl].
Qed.
Lemma stream_spec e : (if existsb (N.eqb (e_code e)) informative then Stdout else Stderr) = Stdout <-> In (e_code e) [0; 5; 8; 15; 16; 17; 18].
Proof.
  destruct (existsb (N.eqb (e_code e)) informative) eqn:E.
  - split; [intros _|reflexivity]. apply existsb_exists in E as (x & Hx & X). apply N.eqb_eq in X. rewrite X. cbn in *. tauto.
  - split; [discriminate|]. intros H. exfalso. assert (existsb (N.eqb (e_code e)) informative = true); [|congruence].
    apply existsb_exists. exists (e_code e). split; [cbn in *; tauto|apply N.eqb_refl].
Qed.
Lemma lines_display es : lines ms all es (flat_map disp es).
Proof.
  induction es as [|e es (keep & H1 & H2)]; [exists []; split; constructor|]. destruct (display_spec e) as (k & Hk & E). exists (k :: keep). split; [now constructor|].
  cbn [combine filter flat_map snd]. rewrite E. destruct k; cbn [map fst app]; [|exact H2]. constructor; [|exact H2]. split; [reflexivity|]. cbn [fst]. apply stream_spec.
Qed.
Lemma lines_only es : forall ls, lines ms all es ls -> ls = flat_map disp es.
Proof.
  induction es as [|e es IH]; intros ls (keep & H1 & H2).
  - inversion H1; subst. inversion H2. reflexivity.
  - inversion H1 as [|? k ? keep' Hk H1']; subst. destruct (display_spec e) as (k' & Hk' & E). assert (k' = k) as -> by (destruct k, k'; intuition congruence).
    cbn [combine filter flat_map snd] in *. rewrite E. destruct k; cbn [map fst app] in *.
    + inversion H2 as [|? l ? ls' [Hl1 Hl2] H2']; subst. cbn [app]. f_equal; [|apply IH; now exists keep'].
      destruct l as [a b]. cbn [fst snd] in *. subst b. f_equal. pose proof (stream_spec e). destruct a, (existsb (N.eqb (e_code e)) informative); intuition congruence.
    + cbn [app]. apply IH. now exists keep'.
Qed.

(** ** Theorems *)
Lemma shown_kept s K : inv K s -> exists es, subseq es K /\ out s = flat_map disp es.
Proof.
  intros (_ & _ & S0 & L1 & late & k & _ & <- & E & _). exists (S0 ++ firstn k L1). split; [|exact E]. apply sub_app; [apply sub_refl|].
  rewrite <- (firstn_skipn k L1) at 2. rewrite <- (app_nil_r (firstn k L1)) at 1. apply sub_app; [apply sub_refl|apply sub_nil_l].
Qed.
Lemma sub_trans {A} (b c : list A) : subseq b c -> forall a, subseq a b -> subseq a c.
Proof.
  induction 1 as [|x b c H IH|x b c H IH]; intros a Ha; [exact Ha| |constructor; auto]. inversion Ha; subst; constructor; auto.
Qed.
Lemma sub_drop {A} (a b c : list A) : subseq (a ++ b) c -> subseq a c.
Proof. intros H. eapply sub_trans; [exact H|]. rewrite <- (app_nil_r a) at 1. apply sub_app; [apply sub_refl|apply sub_nil_l]. Qed.
Theorem order p sch : exists es, subseq es (emitted p) /\ lines ms all es (out (rn (start p) sch)).
Proof.
  pose proof (inv_run sch _ _ (inv_start p)) as H. cbn [app] in H. apply shown_kept in H as (es & H1 & H2). exists es. split.
  - eapply sub_trans; [|exact H1]. eapply sub_drop. apply (kept_sub sch (start p)).
  - rewrite H2. apply lines_display.
Qed.
Lemma end_kept p sch : no_stop p -> cpc (rn (start (whole p)) sch) = CEnd ->
  prog (rn (start (whole p)) sch) = [] /\ out (rn (start (whole p)) sch) = flat_map disp (kept (start (whole p)) sch).
Proof.
  intros Hn He. destruct (ended_run sch _ (ended_start p Hn)) as ((q & Hq) & _ & H). destruct (H He) as [Hd Hl].
  split; [destruct Hq as [(_ & _ & X)|(X & _)]; [congruence|exact X]|].
  destruct (inv_run sch _ _ (inv_start (whole p))) as (_ & _ & S0 & L1 & late & k & E1 & E2 & E3 & E4). rewrite He in E4. destruct E4 as [-> ->]. rewrite Hl, app_nil_r in E1. subst L1.
  cbn [app] in E2. rewrite <- E2. exact E3.
Qed.
Theorem all_in_time p sch : no_stop p -> in_time ms all (start (whole p)) sch -> cpc (rn (start (whole p)) sch) = CEnd ->
  lines ms all (emitted p) (out (rn (start (whole p)) sch)).
Proof.
  intros Hn Ht He. destruct (end_kept p sch Hn He) as [Hp ->]. pose proof (kept_all sch _ Ht) as K. rewrite Hp in K. cbn [emitted prog start] in K. rewrite app_nil_r, emitted_whole in K. rewrite K. apply lines_display.
Qed.
Lemma sub_count es es' : subseq es es' -> (length (flat_map disp es) <= length (flat_map disp es'))%nat.
Proof. induction 1 as [|x a b H IH|x a b H IH]; cbn [flat_map]; rewrite ?app_length; lia. Qed.
Theorem lost p a b e q : no_stop p -> too_late (rn (start (whole p)) a) -> prog (rn (start (whole p)) a) = Emit e :: q -> (In (e_code e) ms \/ all = true) ->
  cpc (rn (start (whole p)) (a ++ false :: b)) = CEnd -> ~ lines ms all (emitted p) (out (rn (start (whole p)) (a ++ false :: b))).
Proof.
  intros Hn (e' & p' & r & Hp & Hh & Hr) Hq Hw He Hl. destruct (end_kept p _ Hn He) as [_ Ho]. apply lines_only in Hl. rewrite Ho in Hl.
  rewrite kept_app in Hl. cbn [kept] in Hl. set (s := rn (start (whole p)) a) in *.
  assert (K0 : keeps s = []).
  { unfold keeps. rewrite Hp, Hh. destruct (Nat.eqb_spec r (cur s)) as [E|E]; [|reflexivity]. destruct Hr as [Hr|Hr]; [contradiction|]. now rewrite Hr. }
  rewrite K0 in Hl. cbn [app] in Hl.
  assert (E0 : e' = e) by congruence. subst e'.
  pose proof (kept_sub a (start (whole p))) as S1. fold s in S1. cbn [prog start] in S1. rewrite emitted_whole in S1. rewrite Hp in S1. cbn [emitted] in S1.
  pose proof (kept_sub b (stp s false)) as S2. apply sub_drop in S2.
  assert (Pb : prog (stp s false) = p') by (unfold step, pstep; now rewrite Hp, Hh). rewrite Pb in S2.
  apply sub_count in S1. apply sub_count in S2. apply (f_equal (@length _)) in Hl.
  rewrite flat_map_app, app_length in Hl, S1. cbn [flat_map] in S1. rewrite app_length in S1.
  destruct (display_spec e) as (k & Hk & E). destruct k; [|destruct Hk as [_ Hk]; discriminate (Hk Hw)]. rewrite E in S1. cbn [length] in S1. lia.
Qed.

(** ** Waiting after each message *)
Definition quiet (s : st) : Prop :=
  lists s <> [] /\ (match cpc s with CIter | CFor _ _ | CReset => nth_list s (cur s) <> [] | _ => True end) /\
  exists es, prog s = waiting es ++ [SetDone] /\ nth_list s (cur s) = [] /\ (match held s with Some r => es <> [] /\ r = cur s | None => True end) \/
             prog s = Wait :: waiting es ++ [SetDone] /\ held s = None \/ prog s = [] /\ held s = None.
Lemma quiet_in_time s : quiet s -> ~ too_late s.
Proof.
  intros (_ & Hc & es & H) (e & p & r & Hp & Hh & Hr). destruct H as [(H1 & H2 & H3)|[(H1 & _)|(H1 & _)]]; try congruence.
  rewrite Hh in H3. destruct Hr as [Hr|Hr]; [tauto|]. rewrite Hr in Hc. contradiction.
Qed.
Lemma quiet_c s : quiet s -> quiet (stp s true).
Proof.
  intros (Hl & Hc & es & H).
  assert (G : forall p, (match p with CIter | CFor _ _ | CReset => nth_list s (cur s) <> [] | _ => True end) -> quiet (set_pc s p)).
  { intros p Hp. split; [exact Hl|]. split; [exact Hp|]. exists es. exact H. }
  unfold step, cstep. destruct (cpc s) eqn:Ec; try (apply G; exact I).
  - apply G. now destruct (done s).
  - apply G. destruct (nth_list s (cur s)); exact I.
  - apply G. destruct (nth_list s (cur s)); [exact I|discriminate].
  - apply G. exact Hc.
  - destruct (nth_error _ _); [|now apply G]. split; [exact Hl|]. split; [exact Hc|]. exists es. exact H.
  - assert (E : forall p, nth_list (mkSt (lists s ++ [[]]) CSleep p (held s) (done s) (out s)) (cur (mkSt (lists s ++ [[]]) CSleep p (held s) (done s) (out s))) = []).
    { intros p. unfold nth_list, cur. cbn [lists]. rewrite app_length. cbn [length]. replace (length (lists s) + 1 - 1)%nat with (length (lists s)) by lia. now rewrite app_nth2, Nat.sub_diag by lia. }
    split; [cbn [lists]; now destruct (lists s)|]. split; [exact I|]. destruct H as [(H1 & H2 & H3)|[(H1 & H2)|(H1 & H2)]]; [contradiction| |].
    + exists es. right. left. auto.
    + exists es. right. right. auto.
  - split; [exact Hl|]. split; [rewrite Ec; exact I|]. exists es. exact H.
Qed.
Lemma quiet_p s : quiet s -> quiet (stp s false).
Proof.
  intros (Hl & Hc & es & H). destruct H as [(H1 & H2 & H3)|[(H1 & H2)|(H1 & H2)]]; unfold step, pstep; rewrite H1.
  - destruct es as [|e es]; cbn [waiting map concat app].
    + destruct (held s); [destruct H3; contradiction|]. split; [exact Hl|]. split; [cbn [cpc]; exact Hc|]. exists []. right. right. auto.
    + fold (waiting es). destruct (held s) as [r|] eqn:Eh.
      * destruct H3 as [_ ->]. split; [cbn [lists]; intros X; apply (f_equal (@length _)) in X; rewrite append_len in X; destruct (lists s); [contradiction|discriminate]|].
        split. { rewrite H2 in Hc. cbn [cpc]. now destruct (cpc s). }
        exists es. right. left. auto.
      * split; [exact Hl|]. split; [cbn [cpc]; exact Hc|]. exists (e :: es). left. cbn [prog held]. split; [reflexivity|]. split; [exact H2|]. split; [discriminate|reflexivity].
  - destruct (nth_list s (cur s)) eqn:En.
    + split; [exact Hl|]. split; [cbn [cpc]; unfold nth_list, cur in *; cbn [lists]; rewrite En; exact Hc|]. exists es. left. cbn [prog held]. rewrite H2. auto.
    + split; [exact Hl|]. split; [rewrite En; destruct (cpc s); try exact I; discriminate|]. exists es. right. left. auto.
  - split; [exact Hl|]. split; [exact Hc|]. exists es. right. right. auto.
Qed.
Lemma quiet_run sch : forall s, quiet s -> in_time ms all s sch.
Proof.
  induction sch as [|b sch IH]; intros s H; [exact I|]. split; [intros _; now apply quiet_in_time|]. apply IH. destruct b; [now apply quiet_c|now apply quiet_p].
Qed.
Lemma waiting_emitted es : emitted (waiting es) = es /\ no_stop (waiting es).
Proof.
  induction es as [|e es [IH1 IH2]]; [split; [reflexivity|intros []]|]. split; [cbn; now f_equal|]. intros [X|[X|X]]; try discriminate X. now apply IH2.
Qed.
Theorem all_waited es sch : cpc (rn (start (whole (waiting es))) sch) = CEnd -> lines ms all es (out (rn (start (whole (waiting es))) sch)).
Proof.
  intros He. destruct (waiting_emitted es) as [E N]. rewrite <- E at 1. apply all_in_time; [exact N| |exact He].
  apply quiet_run. split; [discriminate|]. split; [exact I|]. exists es. left. repeat split.
Qed.

(** ** The thread ends *)
Definition todo (s : st) : nat :=
  let n := length (nth_list s (cur s)) in
  match cpc s with
  | CEnd => 0
  | CWhile2 => match n with O => 1 | _ => n + 8 end
  | CWhile => match n with O => 2 | _ => n + 9 end
  | CSleep => match n with O => 3 | _ => n + 10 end
  | CReset => 4
  | CFor r i => 5 + (n - i)
  | CIter => 6 + n
  | CIf => match n with O => 4 | _ => 7 + n end
  end%nat.
Lemma done_c s : done (stp s true) = done s.
Proof. unfold step, cstep. destruct (cpc s); try reflexivity. destruct (nth_error _ _); reflexivity. Qed.
Lemma todo_less K s : inv K s -> done s = true -> cpc s <> CEnd -> (todo (stp s true) < todo s)%nat.
Proof.
  intros (A & _ & S0 & L1 & late & k & _ & _ & _ & E) Hd Hn. unfold todo, step, cstep.
  destruct (cpc s) eqn:Ec; cbn [set_pc cpc]; unfold nth_list, cur; cbn [set_pc lists].
  - rewrite Hd. destruct (length _); lia.
  - destruct (nth _ (lists s) []); cbn [length]; lia.
  - destruct (nth _ (lists s) []); cbn [length]; lia.
  - lia.
  - destruct E as (-> & _). unfold nth_list, cur. destruct (nth_error _ i) eqn:En; cbn [set_pc cpc lists].
    + assert (i < length (nth (length (lists s) - 1) (lists s) []))%nat by (apply nth_error_Some; congruence). lia.
    + lia.
  - rewrite app_length. cbn [length]. replace (length (lists s) + 1 - 1)%nat with (length (lists s)) by lia. rewrite app_nth2, Nat.sub_diag by lia. cbn [nth length]. lia.
  - destruct (length _); lia.
  - contradiction.
Qed.
Lemma c_ends n : forall K s, inv K s -> done s = true -> (todo s <= n)%nat -> cpc (rn s (repeat true n)) = CEnd.
Proof.
  induction n as [|n IH]; intros K s Hi Hd Hn; (assert (D : cpc s = CEnd \/ cpc s <> CEnd) by (destruct (cpc s); (left; reflexivity) || (right; discriminate))).
  - destruct D as [D|D]; [exact D|]. pose proof (todo_less K s Hi Hd D). lia.
  - cbn [repeat]. rewrite run_cons. destruct D as [D|D].
    + assert (E : stp s true = s) by (unfold step, cstep; now rewrite D). rewrite E. apply (IH K); auto. unfold todo. rewrite D. lia.
    + pose proof (todo_less K s Hi Hd D). apply (IH K); [now apply inv_c|now rewrite done_c|lia].
Qed.
(** Once the reporter has set done, the thread needs no more than as many steps as there are messages
    waiting, and ten. *)
Theorem thread_ends p sch : done (rn (start p) sch) = true ->
  let s := rn (start p) sch in cpc (rn s (repeat true (length (nth_list s (cur s)) + 10))) = CEnd.
Proof.
  intros Hd s. eapply c_ends; [exact (inv_run sch _ _ (inv_start p))|exact Hd|]. unfold todo. fold s. destruct (cpc s); try lia; destruct (length _); lia.
Qed.
End F.

(** ** A message that is lost *)
Definition m1 := mkEvent 0 (bstr "a"). Definition m2 := mkEvent 6 (bstr "b").
(** the reporter reports a; the display loop runs over it and ends; the reporter reports b; the list is
    replaced; the reporter stops the thread *)
Definition bad_schedule : list bool :=
  [false; false] ++ [true; true; true; true; true] ++ [false; false] ++ [true] ++ [false] ++ [true; true; true].
Lemma bad_run : let s := run [] true (start (whole [Emit m1; Emit m2])) bad_schedule in
  cpc s = CEnd /\ prog s = [] /\ out s = [(Stdout, bstr "a")].
Proof. vm_compute. auto. Qed.
Lemma message_lost : exists ms all es sch, let s := run ms all (start (whole (map Emit es))) sch in
  cpc s = CEnd /\ prog s = [] /\ ~ lines ms all es (out s).
Proof.
  exists [], true, [m1; m2], bad_schedule. destruct bad_run as (H1 & H2 & H3). split; [exact H1|]. split; [exact H2|].
  intros H. apply lines_only in H. change (map Emit [m1; m2]) with [Emit m1; Emit m2] in H. rewrite H3 in H. discriminate H.
Qed.
Definition good_schedule : list bool :=
  [false; false; true; true; true] ++ [false; false] ++ [true; true; true; true; true; true] ++ [false] ++ [true; true; true; true; true].
Lemma good_run : let s := run [6] false (start (whole [Emit m1; Emit m2])) good_schedule in
  in_time [6] false (start (whole [Emit m1; Emit m2])) good_schedule /\ cpc s = CEnd /\ out s = [(Stderr, bstr "b")].
Proof.
  split; [|vm_compute; auto].
  unfold good_schedule. cbn [app in_time].
  repeat (split; [intros Hb; first [discriminate Hb | intros (e & p & r & H1 & H2 & H3); vm_compute in H2; first [discriminate H2 | injection H2 as <-; vm_compute in H3; destruct H3 as [H3|H3]; [now apply H3|discriminate H3]]]|]).
  exact I.
Qed.
Lemma wait_run : let s := run [] true (start (whole (waiting [m1; m2]))) (repeat false 3 ++ repeat true 8 ++ repeat false 3 ++ repeat true 6 ++ [false] ++ repeat true 6 ++ repeat false 2 ++ repeat true 4) in
  cpc s = CEnd /\ out s = [(Stdout, bstr "a"); (Stderr, bstr "b")].
Proof. vm_compute. auto. Qed.
