(** SameSfvFacts: comparing SFV files. *)
From Coq Require Import Permutation Sorted.
From Verif Require Import VolName VolSpec VolFacts Base BaseFacts InfoFacts Sfv SfvSpec SfvFacts SfvSortFacts SameSfv SameSfvSpec.

(** ** The entries of a file are determined *)
Lemma trail_split b : exists b0 t, latin1 b = latin1 b0 ++ latin1 t /\ Forall ascii_white (latin1 t) /\ (latin1 b0 = [] \/ ~ ascii_white (last (latin1 b0) 0)).
Proof.
  destruct (rdrop_split bspace b) as (t & E & H). exists (rdrop_while bspace b), t. split; [rewrite E at 1; unfold latin1; apply map_app|]. split.
  - unfold latin1. rewrite Forall_map. eapply Forall_impl; [|exact H]. intros x. apply bspace_iff.
  - destruct (rdrop_while bspace b) as [|x r] eqn:R; [now left|right]. rewrite <- R. unfold latin1. rewrite (map_last b2n _ x00 : last (map b2n _) 0 = _).
    rewrite <- bspace_iff. rewrite rdrop_last by (rewrite R; discriminate). discriminate.
Qed.
Lemma entry_fun b n c n' c' : entry_line (latin1 b) n c -> entry_line (latin1 b) n' c' -> n = n' /\ c = c'.
Proof.
  intros H H'. destruct (trail_split b) as (b0 & t & E & Ht & Hb). rewrite E in H, H'.
  apply entry_complete in H; [|exact Ht|exact Hb]. apply entry_complete in H'; [|exact Ht|exact Hb]. rewrite H in H'. apply ok_inj in H'. injection H' as -> ->. auto.
Qed.
Lemma entry_not_blank l n c : entry_line l n c -> ~ blank_line l.
Proof.
  intros (pre & sep & w & d & trail & u & m & E & _ & _ & Hd & Hl & _) B. unfold blank_line in B. rewrite E, !Forall_app in B. destruct B as (_ & _ & _ & B & _).
  destruct d as [|x d]; [cbn in Hl; lia|]. inversion B; subst. inversion Hd; subst. apply (hex_not_white x); [assumption|now left].
Qed.
Lemma comment_not_blank l : comment_line l -> ~ blank_line l.
Proof. intros (a & r & -> & _) B. unfold blank_line in B. rewrite Forall_app in B. destruct B as [_ B]. inversion B; subst. unfold ascii_white in *. lia. Qed.
Lemma account_fun ls : forall es cs rs es' cs' rs', account (map latin1 ls) es cs rs -> account (map latin1 ls) es' cs' rs' -> es = es'.
Proof.
  induction ls as [|l ls IH]; intros es cs rs es' cs' rs' A A'; cbn [map] in A, A'.
  - inversion A; inversion A'; subst; reflexivity.
  - inversion A; inversion A'; subst; try (eapply IH; eassumption); try (exfalso; now apply (comment_not_blank (latin1 l))); try contradiction;
      try (exfalso; eapply entry_not_blank; eassumption); try (exfalso; match goal with H : forall _ _, ~ _ |- _ => eapply H; eassumption end).
    f_equal; [|eapply IH; eassumption].
    match goal with H : entry_line _ ?a ?b, H' : entry_line _ ?c ?d |- mkSfv ?a ?b = mkSfv ?c ?d => destruct (entry_fun _ _ _ _ _ H H') as [-> ->] end. reflexivity.
Qed.
Lemma entries_fun data es es' : entries data es -> entries data es' -> es = es'.
Proof.
  intros (cs & rs & ls & L & A) (cs' & rs' & ls' & L' & A'). pose proof (lines_ok data) as L0.
  rewrite (lines_fun _ _ L _ L0) in A. rewrite (lines_fun _ _ L' _ L0) in A'. eapply account_fun; eassumption.
Qed.
Lemma parse_entries data es : entries data es -> exists cs rs, parse_sfv_data data = Ok (es, cs, rs).
Proof.
  intros H. destruct (sfv_thm data) as (es' & cs & rs & ls & P & L & A). rewrite (entries_fun data es es' H) by (exists cs, rs, ls; auto). eauto.
Qed.

(** ** What is equal is the same *)
Lemma same_low a b : same_text a b -> low a = low b.
Proof.
  induction 1 as [|x y a b H _ IH]; [reflexivity|]. unfold low in *. cbn [map]. rewrite IH. f_equal.
  unfold same_letter, capital in H. unfold low1. repeat match goal with |- context[if ?c then _ else _] => destruct c eqn:? end; lia.
Qed.
Lemma sfv_eq_spec a b : sfv_eq a b = true <-> same_text (e_name a) (e_name b) /\ same_text (e_crc a) (e_crc b).
Proof.
  unfold sfv_eq. rewrite andb_true_iff, !teqb_eq. split; intros [A B]; split; (now apply low_same) || (now apply same_low).
Qed.
Lemma entries_eq_spec a : forall b, entries_eq a b = true <-> Forall2 (fun a b => same_text (e_name a) (e_name b) /\ same_text (e_crc a) (e_crc b)) a b.
Proof.
  induction a as [|x a IH]; intros [|y b]; cbn [entries_eq]; try (split; [discriminate|intros H; inversion H]); [split; [constructor|reflexivity]|].
  rewrite andb_true_iff, sfv_eq_spec, IH. split; [intros [A B]; now constructor|intros H; inversion H; subst; auto].
Qed.
Lemma forall2_perm {A B} (R : A -> B -> Prop) l l' : Permutation l l' -> forall m, Forall2 R l m -> exists m', Permutation m m' /\ Forall2 R l' m'.
Proof.
  induction 1 as [|x l l' P IH|x y l|l l' l'' P1 IH1 P2 IH2]; intros m F.
  - inversion F; subst. exists []. auto.
  - inversion F as [|? y ? m0 Hxy F0]; subst. destruct (IH m0 F0) as (m' & Pm & F'). exists (y :: m'). split; [now constructor|now constructor].
  - inversion F as [|? u ? m0 Hu F0]; subst. inversion F0 as [|? v ? m1 Hv F1]; subst. exists (v :: u :: m1). split; [apply perm_swap|]. constructor; [exact Hv|]. now constructor.
  - destruct (IH1 m F) as (m1 & P & F1). destruct (IH2 m1 F1) as (m2 & P' & F2). exists m2. split; [now transitivity m1|exact F2].
Qed.
Lemma eq_same es es' : entries_eq (sort_sfv es) (sort_sfv es') = true -> same_entries es es'.
Proof.
  intros H. apply entries_eq_spec in H. destruct (forall2_perm _ _ _ (Permutation_sym (sort_perm es)) _ H) as (m & P & F). exists m. split; [|exact F].
  transitivity (sort_sfv es'); [apply sort_perm|exact P].
Qed.

(** ** The order of the lines does not matter, where comparing is an order *)
Notation before := (fun a b => sfv_lt a b = true).
Definition trans_on (es : list sfv) : Prop := forall a b c, In a es -> In b es -> In c es -> sfv_lt a b = true -> sfv_lt b c = true -> sfv_lt a c = true.
Lemma strong r : NoDup (map e_name r) -> trans_on r -> step r -> StronglySorted before r.
Proof.
  induction r as [|x r IH]; intros ND T S; [constructor|]. cbn [map] in ND. apply NoDup_cons_iff in ND as [N ND]. apply step_cons in S as [S1 S2].
  assert (T' : trans_on r) by (intros a b c Ha Hb Hc; apply T; now right).
  pose proof (IH ND T' S2) as H. constructor; [exact H|]. destruct r as [|y r]; [constructor|].
  assert (L : sfv_lt x y = true).
  { destruct (lt_total x y) as [L|L]; [|exact L|congruence]. intros E. apply N. left. now rewrite E. }
  constructor; [exact L|]. inversion H as [|? ? _ F]; subst. rewrite Forall_forall in F |- *. intros z Hz. apply (T x y z); [now left|right; now left|right; now right|exact L|now apply F].
Qed.
Lemma strong_unique l : forall m, Permutation l m -> StronglySorted before l -> StronglySorted before m -> l = m.
Proof.
  induction l as [|x l IH]; intros [|y m] P Sl Sm; [reflexivity|apply Permutation_nil in P; discriminate|apply Permutation_sym, Permutation_nil in P; discriminate|].
  inversion Sl as [|? ? Sl1 Fl]; inversion Sm as [|? ? Sm1 Fm]; subst. rewrite Forall_forall in Fl, Fm.
  assert (E : x = y).
  { destruct (Permutation_in x P (or_introl eq_refl)) as [E|X]; [now symmetry|]. destruct (Permutation_in y (Permutation_sym P) (or_introl eq_refl)) as [E|Y]; [exact E|].
    apply Fm in X. apply Fl in Y. apply lt_asym in X. congruence. }
  subst y. f_equal. apply IH; [now apply Permutation_cons_inv in P|assumption|assumption].
Qed.
Lemma sort_unique es p : NoDup (map e_name es) -> trans_on es -> Permutation es p -> sort_sfv es = sort_sfv p.
Proof.
  intros ND T P.
  assert (G : forall q, Permutation es q -> StronglySorted before (sort_sfv q)).
  { intros q Q. assert (R : Permutation es (sort_sfv q)) by (transitivity q; [exact Q|apply sort_perm]). apply strong.
    - apply (Permutation_NoDup (Permutation_map e_name R)). exact ND.
    - intros a b c Ha Hb Hc. apply T; apply (Permutation_in _ (Permutation_sym R)); assumption.
    - exact (proj2 (sort_sorting q)). }
  apply strong_unique; [|apply G; reflexivity|now apply G]. transitivity es; [apply Permutation_sym, sort_perm|]. transitivity p; [exact P|apply sort_perm].
Qed.
Lemma lt_names a b a' b' : e_name a = e_name a' -> e_name b = e_name b' -> sfv_lt a b = sfv_lt a' b'.
Proof. intros A B. unfold sfv_lt. now rewrite A, B. Qed.
Lemma insert_names (Q : sfv -> sfv -> Prop) : (forall a b, Q a b -> e_name a = e_name b) -> forall x y l m, Q x y -> Forall2 Q l m -> Forall2 Q (insert x l) (insert y m).
Proof.
  intros HQ x y l m Hxy F. induction F as [|a b l m Hab F IH]; cbn [insert]; [now repeat constructor|].
  rewrite (lt_names a x b y (HQ _ _ Hab) (HQ _ _ Hxy)). destruct (sfv_lt b y); [now constructor|]. constructor; [exact Hxy|]. now constructor.
Qed.
Lemma sort_names (Q : sfv -> sfv -> Prop) : (forall a b, Q a b -> e_name a = e_name b) -> forall l m, Forall2 Q l m -> Forall2 Q (sort_sfv l) (sort_sfv m).
Proof. intros HQ l m F. induction F as [|a b l m Hab F IH]; [constructor|]. cbn [sort_sfv fold_right]. fold (sort_sfv l) (sort_sfv m). now apply insert_names. Qed.

Lemma up_low x : length x = 4%nat -> low x = str ".rar" -> up_to_case x (str ".rar").
Proof.
  destruct x as [|a [|b [|c [|d [|]]]]]; try discriminate. intros _ H. change (str ".rar") with [46; 114; 97; 114] in *. unfold low in H. cbn [map] in H. injection H as Ha Hb Hc Hd.
  assert (G : forall u v, low1 u = v -> 46 <= v <= 122 -> u = v \/ (65 <= u <= 90 /\ v = u + 32)).
  { clear. intros u v. unfold low1. destruct (_ || _) eqn:E; lia. }
  repeat (apply Forall2_cons; [apply G; (assumption || lia)|]). apply Forall2_nil.
Qed.
Lemma no_rar_ext es e : no_rar es -> In e es -> ext e <> str ".rar".
Proof.
  intros N I E. unfold ext in E.
  assert (L : length (last_part 4 (e_name e)) = 4%nat) by (rewrite <- (map_length low1); change (map low1 ?x) with (low x); rewrite E; reflexivity).
  apply (N e (cut_end 4 (e_name e)) (last_part 4 (e_name e)) I); [|now apply up_low]. unfold cut_end, last_part. rewrite <- rev_app_distr, takeN_dropN. symmetry. apply rev_involutive.
Qed.
Lemma tame_trans es : tame es -> trans_on es.
Proof.
  intros [_ [N|(s & n & Hs & Hn & H)]] a b c Ha Hb Hc.
  - rewrite !lt_plain by (right; split; now apply (no_rar_ext es)). apply text_lt_trans.
  - apply H, vol_names_In in Ha as (i & Hi & Ei). apply H, vol_names_In in Hb as (j & Hj & Ej). apply H, vol_names_In in Hc as (k & Hk & Ek).
    assert (G : forall x y p q, e_name x = vol_name s p -> e_name y = vol_name s q -> p < N.of_nat n -> q < N.of_nat n -> (sfv_lt x y = true <-> p < q)).
    { intros x y p q Ex Ey Hp Hq. destruct (N.lt_trichotomy p q) as [L|[->|L]].
      - destruct (vol_lt s p q x y Hs L) as [A _]; [lia|assumption|assumption|]. tauto.
      - rewrite (lt_same x y) by congruence. split; [discriminate|lia].
      - destruct (vol_lt s q p y x Hs L) as [_ A]; [lia|assumption|assumption|]. rewrite A. split; [discriminate|lia]. }
    rewrite (G a b i j), (G b c j k), (G a c i k) by assumption. lia.
Qed.
Lemma same_eq es es' : tame es -> exact_entries es es' -> entries_eq (sort_sfv es) (sort_sfv es') = true.
Proof.
  intros T (p & P & F). apply entries_eq_spec.
  assert (E : map e_name es = map e_name p).
  { clear - F. induction F as [|a b l m [H _] F IH]; [reflexivity|]. cbn [map]. congruence. }
  assert (S : sort_sfv p = sort_sfv es').
  { apply sort_unique; [rewrite <- E; apply T| |now apply Permutation_sym]. pose proof (tame_trans es T) as Tr. intros a b c Ha Hb Hc.
    assert (G : forall x, In x p -> exists y, In y es /\ e_name y = e_name x).
    { intros x X. apply (in_map e_name) in X. rewrite <- E in X. apply in_map_iff in X as (y & Y & I). eauto. }
    destruct (G a Ha) as (a' & Ia & Ea). destruct (G b Hb) as (b' & Ib & Eb). destruct (G c Hc) as (c' & Ic & Ec).
    rewrite <- (lt_names a' b' a b Ea Eb), <- (lt_names b' c' b c Eb Ec), <- (lt_names a' c' a c Ea Ec). now apply Tr. }
  rewrite <- S. apply (sort_names (fun a b => e_name a = e_name b /\ same_text (e_crc a) (e_crc b))) in F; [|intros a b [H _]; exact H].
  clear - F. induction F as [|a b l m [H1 H2] F IH]; constructor; [|exact IH]. rewrite H1. split; [|exact H2]. clear. induction (e_name b); constructor; [now left|assumption].
Qed.
Theorem same_ok a b es es' : entries a es -> entries b es' -> exists r, same_sfv a b = Ok r /\
  (r = true -> same_entries es es') /\ (tame es -> exact_entries es es' -> r = true).
Proof.
  intros A B. destruct (parse_entries _ _ A) as (cs & rs & Ea). destruct (parse_entries _ _ B) as (cs' & rs' & Eb). unfold same_sfv. rewrite Ea, Eb. cbn [bind fst].
  eexists. split; [reflexivity|]. split; [apply eq_same|apply same_eq].
Qed.
Lemma has_entries data : exists es, entries data es.
Proof. destruct (sfv_thm data) as (es & cs & rs & ls & _ & L & A). exists es, cs, rs, ls. auto. Qed.
(** the entries as they are read *)
Lemma read_entries data es cs rs : parse_sfv_data data = Ok (es, cs, rs) -> entries data es.
Proof. intros P. destruct (sfv_thm data) as (es' & cs' & rs' & ls & P' & L & A). rewrite P in P'. apply ok_inj in P'. injection P' as <- <- <-. exists cs, rs, ls. auto. Qed.

(** ** Examples *)
Lemma four_end (n p x : text) : n = p ++ x -> up_to_case x (str ".rar") -> low (last_part 4 n) = str ".rar".
Proof. intros -> U. assert (L : length x = 4%nat) by (change 4%nat with (length (str ".rar")); unfold up_to_case in U; clear - U; induction U; cbn [length]; congruence). destruct (last4 p x L) as [-> _]. now apply low_rar. Qed.
Lemma no_rar_test es : forallb (fun e => negb (teqb (low (last_part 4 (e_name e))) (str ".rar"))) es = true -> no_rar es.
Proof.
  intros H e p x I E U. rewrite forallb_forall in H. apply H in I. rewrite (four_end _ _ _ E U), teqb_refl in I. discriminate I.
Qed.
Lemma same_refl t : same_text t t.
Proof. induction t; constructor; [now left|assumption]. Qed.
Definition case_a : bytes := bstr "a 1" ++ [x0a] ++ bstr "B 2".
Definition case_b : bytes := bstr "A 1" ++ [x0a] ++ bstr "b 2".
Definition case_es : list sfv := [mkSfv (str "a") (str "00000001"); mkSfv (str "B") (str "00000002")].
Definition case_es' : list sfv := [mkSfv (str "A") (str "00000001"); mkSfv (str "b") (str "00000002")].
Lemma case_ok : entries case_a case_es /\ entries case_b case_es' /\ same_entries case_es case_es' /\ no_rar case_es /\ same_sfv case_a case_b = Ok false.
Proof.
  split; [eapply read_entries; vm_compute; reflexivity|]. split; [eapply read_entries; vm_compute; reflexivity|]. split; [|split; [|vm_compute; reflexivity]].
  - exists case_es'. split; [reflexivity|]. unfold case_es, case_es'. constructor; [|constructor; [|constructor]]; cbn [e_name e_crc]; (split; [|apply same_refl]); apply low_same; vm_compute; reflexivity.
  - apply no_rar_test. vm_compute. reflexivity.
Qed.
Definition order_es : list sfv := [mkSfv (str "a.r00") (str "00000001"); mkSfv (str "a.rab") (str "00000002"); mkSfv (str "a.rar") (str "00000003")].
Definition order_es' : list sfv := [mkSfv (str "a.rab") (str "00000002"); mkSfv (str "a.rar") (str "00000003"); mkSfv (str "a.r00") (str "00000001")].
Definition order_a : bytes := bstr "a.r00 1" ++ [x0a] ++ bstr "a.rab 2" ++ [x0a] ++ bstr "a.rar 3".
Definition order_b : bytes := bstr "a.rab 2" ++ [x0a] ++ bstr "a.rar 3" ++ [x0a] ++ bstr "a.r00 1".
Lemma order_ok : entries order_a order_es /\ entries order_b order_es' /\ Permutation order_es order_es' /\ NoDup (map e_name order_es) /\ same_sfv order_a order_b = Ok false.
Proof.
  split; [eapply read_entries; vm_compute; reflexivity|]. split; [eapply read_entries; vm_compute; reflexivity|]. split; [|split; [|vm_compute; reflexivity]].
  - unfold order_es, order_es'. eapply perm_trans; [apply perm_swap|]. apply perm_skip, perm_swap.
  - repeat (constructor; [cbn; intuition discriminate|]). constructor.
Qed.
