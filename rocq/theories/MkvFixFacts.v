(** MkvFixFacts: proofs about fixed MKV files. *)
From Coq Require Import Permutation Sorted.
From Verif Require Import Base BaseFacts Ebml EbmlSpec EbmlFacts SrrFacts MkvFix MkvFixSpec.

Lemma lt_is a b : bytes_lt a b = true <-> lex_lt a b.
Proof.
  split.
  - revert b. induction a as [|x a IH]; intros [|y b]; cbn [bytes_lt]; try discriminate; [intros _; constructor|].
    intros H. apply orb_true_iff in H. destruct H as [H|H]; [apply N.ltb_lt in H; now apply lx_head|]. apply andb_true_iff in H. destruct H as [E H]. apply N.eqb_eq in E. apply b2n_inj in E. subst y. apply lx_tail. auto.
  - induction 1; cbn [bytes_lt]; [reflexivity| |].
    + replace (b2n x <? b2n y) with true by (symmetry; now apply N.ltb_lt). reflexivity.
    + rewrite N.eqb_refl, IHlex_lt. apply orb_true_r.
Qed.
Lemma lex_trans a b c : lex_lt a b -> lex_lt b c -> lex_lt a c.
Proof.
  intros H. revert c. induction H as [y b|x y a b H|x a b H IH]; intros c G; inversion G; subst; solve [constructor|apply lx_head; lia|apply lx_tail; auto].
Qed.
Lemma lex_le_trans a b c : ~ lex_lt a b -> ~ lex_lt b c -> ~ lex_lt a c.
Proof.
  assert (T : forall a b, lex_lt a b \/ a = b \/ lex_lt b a).
  { induction a0 as [|x a0 IH]; intros [|y b0]; [right; now left|left; constructor|right; right; constructor|].
    destruct (N.lt_trichotomy (b2n x) (b2n y)) as [H|[H|H]]; [left; now apply lx_head| |right; right; now apply lx_head]. apply b2n_inj in H. subst y.
    destruct (IH b0) as [H|[->|H]]; [left; now apply lx_tail|right; now left|right; right; now apply lx_tail]. }
  intros A B C. destruct (T a b) as [H|[->|H]]; [contradiction|contradiction|]. apply B. exact (lex_trans _ _ _ H C).
Qed.
Lemma lex_irrefl a : ~ lex_lt a a.
Proof. induction a as [|x a IH]; intros H; inversion H; subst; [lia|contradiction]. Qed.
Lemma lex_asym a b : lex_lt a b -> ~ lex_lt b a.
Proof. intros H G. exact (lex_irrefl _ (lex_trans _ _ _ H G)). Qed.
Lemma insert_perm k l : Permutation (insert k l) (k :: l).
Proof. induction l as [|x l IH]; cbn [insert]; [reflexivity|]. destruct (bytes_lt _ _); [|reflexivity]. rewrite IH. apply perm_swap. Qed.
Theorem sorted_perm l : Permutation (sorted_seeks l) l.
Proof. induction l as [|k l IH]; cbn [sorted_seeks]; [reflexivity|]. rewrite insert_perm. now constructor. Qed.
Lemma insert_down k l : downwards l -> downwards (insert k l).
Proof.
  unfold downwards. induction 1 as [|x l H IH F]; cbn [insert]; [repeat constructor|]. destruct (bytes_lt (k_pos k) (k_pos x)) eqn:E.
  - constructor; [exact IH|]. apply Forall_forall. intros y Hy. apply (Permutation_in _ (insert_perm k l)) in Hy. destruct Hy as [<-|Hy]; [apply lex_asym; now apply lt_is|]. rewrite Forall_forall in F. now apply F.
  - assert (Q : ~ lex_lt (k_pos k) (k_pos x)) by (rewrite <- lt_is; congruence). constructor; [now constructor|]. constructor; [exact Q|]. rewrite Forall_forall in F |- *. intros y Hy. apply (lex_le_trans _ (k_pos x)); auto.
Qed.
Theorem sorted_down l : downwards (sorted_seeks l).
Proof. induction l as [|k l IH]; cbn [sorted_seeks]; [constructor|now apply insert_down]. Qed.
Lemma elem_is id data b : elem id data = Ok b -> element id data b.
Proof.
  unfold elem. intros H. destruct (make_ebml_uint (lenN data)) as [l|] eqn:E; [|discriminate H]. cbn [bind] in H. apply ok_inj in H. subst b.
  destruct (N.lt_ge_cases (lenN data) (2 ^ 49)) as [L|L]; [|rewrite make_large in E by exact L; discriminate].
  destruct (make_thm (lenN data) L) as (w & M & V & F). rewrite M in E. apply ok_inj in E. subst l. exists w. now split.
Qed.
Lemma entry_ok t i k b : i <= t -> seek_entry t i k = Ok b -> entry_is (t - i) k b.
Proof.
  intros L. unfold seek_entry, entry_is. destruct (beqb (k_id k) ID_INFO) eqn:E.
  - apply beqb_eq in E. destruct ((t <? i) || (65535 <? t - i)) eqn:O; [discriminate|]. apply orb_false_iff in O. destruct O as [_ O]. apply N.ltb_ge in O.
    intros H. destruct (elem ID_SEEK_POSITION (be 2 (t - i))) as [p|] eqn:P; [|discriminate H]. cbn [bind] in H. left. split; [exact E|]. split; [lia|]. exists p. split; [now apply elem_is|now apply elem_is].
  - intros H. apply ok_inj in H. subst b. right. split; [|reflexivity]. intros X. change [x15; x49; xa9; x66] with ID_INFO in X. rewrite X in E. assert (beqb ID_INFO ID_INFO = true) by reflexivity. congruence.
Qed.
Lemma entries_ok t i l b : i <= t -> entries t i l = Ok b -> entries_are (t - i) l b.
Proof.
  intros L. revert b. induction l as [|k l IH]; intros b H; cbn [entries] in H; [apply ok_inj in H; subst b; constructor|].
  destruct (seek_entry t i k) as [a|] eqn:A; [|discriminate H]. cbn [bind] in H. destruct (entries t i l) as [c|] eqn:C; [|discriminate H]. cbn [bind] in H. apply ok_inj in H. subst b. constructor; [now apply entry_ok|now apply IH].
Qed.
Lemma total_is d : total d = old_size d.
Proof. unfold total, old_size. rewrite !lenN_app. lia. Qed.
(** the fixed data *)
Theorem fix_thm d s out : fix_usenet d = Ok (s, out) -> exists head info es, s = d_start d /\ element [x11; x4d; x9b; x74] es head /\ element [x15; x49; xa9; x66] (d_info d) info /\
  (exists l, Permutation l (d_seeks d) /\ downwards l /\ (lenN info <= old_size d -> entries_are (old_size d - lenN info) l es)) /\
  (forall v, old_size d = lenN head + 3 + v + lenN info -> 128 <= v < 16384 -> element [xec] (repN v x00) ([xec] ++ vint 2 v ++ repN v x00) /\ out = head ++ ([xec] ++ vint 2 v ++ repN v x00) ++ info).
Proof.
  rewrite <- total_is. unfold fix_usenet. intros H. destruct (elem ID_INFO (d_info d)) as [info|] eqn:I; [|discriminate H]. cbn [bind] in H.
  destruct (entries (total d) (lenN info) (sorted_seeks (d_seeks d))) as [es|] eqn:E; [|discriminate H]. cbn [bind] in H.
  destruct (elem ID_SEEK_HEAD es) as [head|] eqn:A; [|discriminate H]. cbn [bind] in H.
  destruct (void_segment (Z.of_N (total d) - Z.of_N (lenN info) - Z.of_N (lenN head))) as [void|] eqn:V; [|discriminate H]. cbn [bind] in H.
  apply ok_inj in H. apply pair_equal_spec in H. destruct H as [<- <-].
  exists head, info, es. split; [reflexivity|]. split; [now apply elem_is|]. split; [now apply elem_is|]. split.
  - exists (sorted_seeks (d_seeks d)). split; [apply sorted_perm|]. split; [apply sorted_down|]. intros L. now apply entries_ok.
  - intros v T B. assert (M : make_ebml_uint v = Ok (vint 2 v)) by (apply make_vint; [lia|change (2 ^ (7 * N.of_nat 2)) with 16384; lia|right; change (2 ^ (7 * (N.of_nat 2 - 1))) with 128; lia]).
    assert (Lz : lenN (repN v x00) = v) by apply lenN_repN. split.
    + apply elem_is. unfold elem. rewrite Lz, M. reflexivity.
    + f_equal. f_equal. unfold void_segment in V. replace (Z.of_N (total d) - Z.of_N (lenN info) - Z.of_N (lenN head))%Z with (Z.of_N v + 3)%Z in V by lia.
      replace (Z.of_N v + 3 <? 3)%Z with false in V by (symmetry; apply Z.ltb_ge; lia). replace (Z.to_N (Z.of_N v + 3 - 3)) with v in V by lia. rewrite M in V. cbn [bind] in V. now apply ok_inj in V.
Qed.
(** the fixed file *)
Theorem file_thm file d f' : fixed_copy file d = Ok (Some f') -> d_start d + old_size d <= lenN file -> exists head info es,
  element [x11; x4d; x9b; x74] es head /\ element [x15; x49; xa9; x66] (d_info d) info /\
  forall v, old_size d = lenN head + 3 + v + lenN info -> 128 <= v < 16384 ->
    lenN f' = lenN file /\ takeN (d_start d) f' = takeN (d_start d) file /\ dropN (d_start d + old_size d) f' = dropN (d_start d + old_size d) file /\
    exists rest, dropN (d_start d + (old_size d - lenN info)) f' = info ++ rest.
Proof.
  unfold fixed_copy. intros H L. destruct (check_fixable d) as [[]|]; [|discriminate H|discriminate H]. cbn [bind] in H. destruct (fix_usenet d) as [[s out]|] eqn:F; [|discriminate H]. cbn [bind fst snd] in H.
  apply ok_inj in H. apply some_inj in H. subst f'. destruct (fix_thm d s out F) as (head & info & es & -> & He & Hi & _ & V). exists head, info, es. split; [exact He|]. split; [exact Hi|].
  intros v T B. destruct (V v T B) as [_ ->]. set (void := [xec] ++ vint 2 v ++ repN v x00).
  assert (Lv : lenN void = 3 + v) by (unfold void; rewrite !lenN_app, lenN_vint, lenN_repN; change (lenN [xec]) with 1; lia).
  assert (Lo : lenN (head ++ void ++ info) = old_size d) by (rewrite !lenN_app; lia).
  unfold patched. rewrite Lo. assert (Lt : lenN (takeN (d_start d) file) = d_start d) by (rewrite lenN_takeN; lia).
  split; [rewrite !lenN_app, lenN_dropN, Lt; rewrite !lenN_app in Lo; lia|]. split; [now apply takeN_app_exact|]. split.
  - rewrite app_assoc. apply dropN_app_exact. rewrite lenN_app, Lt, Lo. reflexivity.
  - exists (dropN (d_start d + old_size d) file). replace (takeN (d_start d) file ++ (head ++ void ++ info) ++ dropN (d_start d + old_size d) file) with ((takeN (d_start d) file ++ head ++ void) ++ info ++ dropN (d_start d + old_size d) file) by now rewrite <- !app_assoc.
    apply dropN_app_exact. rewrite !lenN_app in Lo |- *. lia.
Qed.
Theorem none_thm file d : fixed_copy file d = Ok None <-> exists l k, d_seeks d = l ++ [k] /\ k_id k <> [x15; x49; xa9; x66].
Proof.
  unfold fixed_copy, check_fixable. change [x15; x49; xa9; x66] with ID_INFO. destruct (rev (d_seeks d)) as [|k r] eqn:R; apply (f_equal (@rev _)) in R; rewrite rev_involutive in R; cbn [rev bind] in *.
  - split; [discriminate|]. intros (l & k & E & _). rewrite E in R. destruct l; discriminate R.
  - rewrite R. destruct (beqb (k_id k) ID_INFO) eqn:B.
    + apply beqb_eq in B. split.
      * intros H. destruct (fix_usenet d); cbn [bind] in H; discriminate H.
      * intros (l & k' & E & Q). apply app_inj_tail in E. destruct E as [_ <-]. contradiction.
    + split; [|reflexivity]. intros _. exists (rev r), k. split; [reflexivity|]. intros X. apply beqb_eq in X. congruence.
Qed.
