(** SampleNzbFacts: proofs about the NZB files of samples. *)
From Verif Require Import Base BaseFacts Path SrrFacts SampleNzb SampleNzbSpec.

Lemma starts_is (p t : text) : starts_with N.eqb p t = true <-> exists r, t = p ++ r.
Proof.
  revert t. induction p as [|x p IH]; intros t; cbn [starts_with app]; [split; [intros _; now exists t|reflexivity]|].
  destruct t as [|y t]; [split; [discriminate|intros (r & E); discriminate E]|]. rewrite Bool.andb_true_iff, N.eqb_eq, IH. split.
  - intros (-> & r & ->). now exists r.
  - intros (r & E). injection E as -> ->. split; [reflexivity|now exists r].
Qed.
(** the extensions *)
Lemma exts_is o e : In e (exts_of o) <-> asked o e.
Proof.
  unfold exts_of, asked. destruct o as [a b c d f g mx out]. cbn [o_avi o_mkv o_mp4 o_wmv o_vob o_m2ts].
  destruct a, b, c, d, f, g; cbn [app In]; split; intros H; repeat match type of H with _ \/ _ => destruct H as [H|H] end; intuition (try congruence).
Qed.
(** what follows them *)
Lemma any_is t : any_par2 t = true <-> exists c, t = c :: str "par2".
Proof.
  unfold any_par2. destruct t as [|c r]; [split; [discriminate|intros (c & E); discriminate E]|]. rewrite teqb_eq. split; [intros ->; now exists c|intros (k & E); now injection E].
Qed.
Lemma dec_is c : is_dec c = true <-> 48 <= c <= 57.
Proof. unfold is_dec. rewrite Bool.andb_true_iff, !N.leb_le. reflexivity. Qed.
Lemma past_split t : exists a, t = a ++ past_digits t /\ (forall c, In c a -> 48 <= c <= 57) /\ (forall c r, past_digits t = c :: r -> is_dec c = false).
Proof.
  induction t as [|c t IH]; cbn [past_digits]; [exists []; split; [reflexivity|]; split; [intros c []|discriminate]|].
  destruct (is_dec c) eqn:E.
  - destruct IH as (a & H & A & B). exists (c :: a). split; [cbn [app]; congruence|]. split; [|exact B]. intros k [<-|I]; [now apply dec_is|auto].
  - exists []. split; [reflexivity|]. split; [intros k []|]. intros k r X. injection X as <- _. exact E.
Qed.
Lemma past_app a r : (forall c, In c a -> 48 <= c <= 57) -> past_digits (a ++ 43 :: r) = 43 :: r.
Proof.
  induction a as [|c a IH]; intros H; [reflexivity|]. cbn [app past_digits]. rewrite (proj2 (dec_is c) (H c (or_introl eq_refl))). apply IH. intros k Hk. apply H. now right.
Qed.
Lemma end_is s : (6 <=? lenN s) && forallb is_dec (takeN (lenN s - 5) s) && any_par2 (dropN (lenN s - 5) s) = true <-> exists b c, number b /\ s = b ++ c :: str "par2".
Proof.
  rewrite !Bool.andb_true_iff, N.leb_le, forallb_forall, any_is. split.
  - intros ((L & A) & c & E). exists (takeN (lenN s - 5) s), c. split; [|rewrite <- E; now rewrite takeN_dropN]. split.
    + intros X. pose proof (lenN_takeN (lenN s - 5) s) as Y. rewrite X in Y. change (lenN (@nil N)) with 0 in Y. lia.
    + intros k Hk. apply dec_is. auto.
  - intros (b & c & (Hb & Hd) & ->). assert (L : lenN (b ++ c :: str "par2") - 5 = lenN b) by (rewrite lenN_app; change (lenN (c :: str "par2")) with 5; lia).
    rewrite L, takeN_app_exact, dropN_app_exact by reflexivity. split; [split|].
    + rewrite lenN_app. change (lenN (c :: str "par2")) with 5. destruct b; [contradiction|]. rewrite lenN_cons. lia.
    + intros k Hk. apply dec_is. auto.
    + now exists c.
Qed.
Lemma vol_is t : vol_par2 t = true <-> exists a b c, number a /\ number b /\ t = str ".vol" ++ a ++ str "+" ++ b ++ c :: str "par2".
Proof.
  unfold vol_par2. rewrite Bool.andb_true_iff, starts_is. split.
  - intros ((r & ->) & H). rewrite dropN_app_exact in H by reflexivity. destruct r as [|c r]; [discriminate H|]. apply Bool.andb_true_iff in H. destruct H as [Hc H].
    destruct (past_split r) as (a & Er & A & _). destruct (past_digits r) as [|p s]; [discriminate H|].
    assert (p = 43) by (destruct (N.eq_dec p 43) as [|N0]; [assumption|exfalso; destruct p as [|p]; [discriminate H|]; repeat (destruct p as [p|p|]; try discriminate H); congruence]).
    subst p. apply end_is in H. destruct H as (b & k & Hb & ->). exists (c :: a), b, k. split; [split; [discriminate|]; intros x [<-|I]; [now apply dec_is|auto]|]. split; [exact Hb|]. rewrite Er. reflexivity.
  - intros (a & b & k & (Na & Ha) & Hb & ->). split; [eexists; reflexivity|]. rewrite dropN_app_exact by reflexivity. destruct a as [|c a]; [contradiction|]. cbn [app].
    rewrite (proj2 (dec_is c) (Ha c (or_introl eq_refl))). cbn [andb]. change (str "+") with [43]. cbn [app]. rewrite past_app by (intros x Hx; apply Ha; now right). apply end_is. now exists b, k.
Qed.
Lemma tail_is t : tail_ok t = true <-> repair t.
Proof.
  unfold tail_ok. rewrite !Bool.orb_true_iff, N.eqb_eq, any_is, vol_is. split.
  - intros [[H|(c & ->)]|(a & b & c & Ha & Hb & ->)]; [|constructor 2|now constructor 3]. destruct t; [constructor|rewrite lenN_cons in H; lia].
  - intros []; [left; left; reflexivity|left; right; now exists c|right; now exists a, b, c].
Qed.
Lemma matches_is exts t : matches exts t = true <-> exists pre e tail, t = pre ++ e ++ tail /\ In e exts /\ repair tail.
Proof.
  assert (H0 : forall t, existsb (fun e => starts_with N.eqb e t && tail_ok (dropN (lenN e) t)) exts = true <-> exists e tail, t = e ++ tail /\ In e exts /\ repair tail).
  { intros u. rewrite existsb_exists. split.
    - intros (e & I & X). apply Bool.andb_true_iff in X. destruct X as [S0 T0]. apply starts_is in S0. destruct S0 as (r & ->). rewrite dropN_app_exact in T0 by reflexivity. apply tail_is in T0. now exists e, r.
    - intros (e & r & -> & I & R0). exists e. split; [exact I|]. apply Bool.andb_true_iff. split; [apply starts_is; now exists r|]. rewrite dropN_app_exact by reflexivity. now apply tail_is. }
  induction t as [|c t IH]; cbn [matches]; rewrite Bool.orb_true_iff, H0.
  - split.
    + intros [(e & r & E & I & R0)|X]; [|discriminate X]. exists [], e, r. auto.
    + intros (pre & e & r & E & I & R0). left. destruct pre; [|discriminate E]. now exists e, r.
  - rewrite IH. split.
    + intros [(e & r & E & I & R0)|(pre & e & r & -> & I & R0)]; [exists [], e, r; auto|exists (c :: pre), e, r; auto].
    + intros (pre & e & r & E & I & R0). destruct pre as [|k pre]; [left; now exists e, r|]. cbn [app] in E. injection E as -> ->. right. now exists pre, e, r.
Qed.
Theorem sample_thm o n : is_sample o n = true <-> sample_name o n.
Proof.
  unfold is_sample, sample_name. rewrite matches_is. split; intros (pre & e & tail & E & I & R0); exists pre, e, tail; (split; [exact E|]; split; [now apply exts_is|exact R0]).
Qed.
(** the files that are kept *)
Lemma kept_unique o l : forall a b, kept o l a -> kept o l b -> a = b.
Proof.
  induction l as [|f l IH]; intros a b A B; inversion A; inversion B; subst; try reflexivity; try contradiction; [f_equal|]; now apply IH.
Qed.
Lemma total_is f : fold_left Z.add (f_sizes f) 0%Z = fold_right Z.add 0%Z (f_sizes f).
Proof. apply fold_symmetric; intros; lia. Qed.
Lemma take_is o l : match take_samples o l with Ok r => kept o l r | Err _ => kept o l [] end.
Proof.
  destruct (o_max o) as [m|e] eqn:M.
  - assert (H : exists r, take_samples o l = Ok r /\ kept o l r).
    { induction l as [|f l (r & E & K)]; [exists []; split; [reflexivity|constructor]|]. cbn [take_samples]. destruct (is_sample o (f_name f)) eqn:S0.
      - rewrite M. cbn [bind]. destruct ((0 <? m)%Z && (m <? fold_left Z.add (f_sizes f) 0)%Z) eqn:T0.
        + exists r. split; [exact E|]. apply k_skip; [|exact K]. intros (_ & m' & M' & X). rewrite M in M'. apply ok_inj in M'. subst m'. apply Bool.andb_true_iff in T0. destruct T0 as [T1 T2]. apply Z.ltb_lt in T1, T2. rewrite total_is in T2. destruct X as [X|(n & -> & X)]; lia.
        + rewrite E. cbn [bind]. exists (f :: r). split; [reflexivity|]. apply k_take; [|exact K]. split; [now apply sample_thm|]. exists m. split; [exact M|]. apply Bool.andb_false_iff in T0. rewrite total_is in T0. destruct T0 as [T0|T0]; apply Z.ltb_ge in T0; [now left|right]. eexists. split; [reflexivity|exact T0].
      - exists r. split; [exact E|]. apply k_skip; [|exact K]. intros (X & _). apply sample_thm in X. congruence. }
    destruct H as (r & -> & K). exact K.
  - assert (K : kept o l []) by (induction l as [|f l IH]; [constructor|apply k_skip; [intros (_ & m & X & _); congruence|exact IH]]).
    destruct (take_samples o l) as [r|] eqn:T0; [|exact K]. assert (r = []); [|now subst r].
    clear K. revert r T0. induction l as [|f l IH]; intros r T0; cbn [take_samples] in T0; [now apply ok_inj in T0|]. destruct (is_sample o (f_name f)); [|now apply IH]. rewrite M in T0. discriminate T0.
Qed.
(** one file *)
Lemma nzb_is p : teqb (lower (dropN (lenN p - 4) p)) (str ".nzb") = true <-> nzb_name p.
Proof.
  rewrite teqb_eq. split.
  - intros H. exists (takeN (lenN p - 4) p), (dropN (lenN p - 4) p). split; [now rewrite takeN_dropN|exact H].
  - intros (b & e & -> & H). assert (L : lenN e = 4) by (pose proof (f_equal lenN H) as X; unfold lower in X; rewrite !lenN_length, map_length in X; rewrite lenN_length; exact X).
    rewrite lenN_app, L. rewrite dropN_app_exact by lia. exact H.
Qed.
Definition one (o : options) (d : disk) (p q : text) (r : list nfile) : Prop := nzb_name p /\ place o p q /\ exists l, d p = Some (Files l) /\ kept o l r /\ r <> [].
Lemma place_unique o p q q' : place o p q -> place o p q' -> q = q'.
Proof. intros [(A & ->)|(A & ->)] [(B & ->)|(B & ->)]; congruence. Qed.
Lemma check_is py3 o d p : (exists q r, one o d p q r /\ check_file py3 o d p = put q (if py3 then Empty else Files r) d) \/ (check_file py3 o d p = d /\ forall q r, ~ one o d p q r).
Proof.
  unfold check_file. destruct (teqb (lower (dropN (lenN p - 4) p)) (str ".nzb")) eqn:T0.
  2:{ right. split; [reflexivity|]. intros q r (X & _). apply nzb_is in X. congruence. }
  apply nzb_is in T0. unfold extract_sample, read_nzb. destruct (d p) as [[l| |]|] eqn:D; cbn [bind];
    try (right; split; [reflexivity|]; intros q r (_ & _ & l0 & X & _); congruence).
  pose proof (take_is o l) as K. destruct (take_samples o l) as [[|f r]|e].
  - right. split; [reflexivity|]. intros q r (_ & _ & l0 & X & Y & Z0). rewrite D in X. injection X as <-. apply Z0. exact (kept_unique _ _ _ _ Y K).
  - left. exists (pjoin match o_out o with [] => pjoin (dirname p) (str "samples") | _ => o_out o end (basename p)), (f :: r). split; [|reflexivity].
    split; [exact T0|]. split; [|exists l; split; [exact D|]; split; [exact K|discriminate]]. unfold place. destruct (o_out o) as [|c w]; [left|right]; split; congruence.
  - right. split; [reflexivity|]. intros q r (_ & _ & l0 & X & Y & Z0). rewrite D in X. injection X as <-. apply Z0. exact (kept_unique _ _ _ _ Y K).
Qed.
Lemma put_same p c d : put p c d p = Some c.
Proof. unfold put. now rewrite teqb_refl. Qed.
Lemma put_other p c d q : q <> p -> put p c d q = d q.
Proof. intros H. unfold put. destruct (teqb p q) eqn:E; [apply teqb_eq in E; congruence|reflexivity]. Qed.
(** all of them *)
Lemma loop py3 o (S0 : text -> Prop) (d : disk) (ap : forall p q p', S0 p -> S0 p' -> nzb_name p -> nzb_name p' -> place o p q -> q <> p' /\ (place o p' q -> p = p')) :
  forall ps d0, (forall p, In p ps -> S0 p) -> (forall p, S0 p -> nzb_name p -> d0 p = d p) ->
  (forall p q r, In p ps -> one o d p q r -> fold_left (check_file py3 o) ps d0 q = Some (if py3 then Empty else Files r)) /\
  (forall q, (forall p r, In p ps -> ~ one o d p q r) -> fold_left (check_file py3 o) ps d0 q = d0 q).
Proof.
  induction ps as [|a ps IH]; intros d0 HS HD; cbn [fold_left].
  { split; [intros p q r []|reflexivity]. }
  assert (HS' : forall p, In p ps -> S0 p) by (intros p Hp; apply HS; now right). assert (Sa : S0 a) by (apply HS; now left).
  assert (Same : forall q r, one o d0 a q r <-> one o d a q r).
  { intros q r. unfold one. split; intros (A & B & l & C & D); (split; [exact A|]; split; [exact B|]; exists l; split; [|exact D]); [now rewrite <- (HD a Sa A)|now rewrite (HD a Sa A)]. }
  destruct (check_is py3 o d0 a) as [(q0 & r0 & O0 & ->)|(-> & No)].
  - assert (HD' : forall p, S0 p -> nzb_name p -> put q0 (if py3 then Empty else Files r0) d0 p = d p).
    { intros p Sp Np. rewrite put_other; [now apply HD|]. destruct O0 as (A & B & _). intros ->. exact (proj1 (ap a q0 q0 Sa Sp A Np B) eq_refl). }
    destruct (IH _ HS' HD') as [I1 I2]. assert (O1 := proj1 (Same q0 r0) O0). split.
    + intros p q r [<-|Hp] Ho; [|exact (I1 p q r Hp Ho)]. destruct (in_dec (list_eq_dec N.eq_dec) a ps) as [Ia|Na]; [exact (I1 a q r Ia Ho)|].
      assert (q = q0) by (destruct O1 as (_ & P1 & _), Ho as (_ & P2 & _); exact (place_unique _ _ _ _ P2 P1)). subst q.
      assert (r = r0) by (destruct O1 as (_ & _ & l1 & E1 & K1 & _), Ho as (_ & _ & l2 & E2 & K2 & _); rewrite E1 in E2; injection E2 as <-; exact (kept_unique _ _ _ _ K2 K1)). subst r.
      rewrite I2; [apply put_same|]. intros p r Hp (Np & Pp & _). destruct O1 as (A1 & P1 & _). apply Na. rewrite (proj2 (ap a q0 p Sa (HS' p Hp) A1 Np P1) Pp). exact Hp.
    + intros q Hq. rewrite I2; [|intros p r Hp; apply Hq; now right]. apply put_other. intros ->. exact (Hq a r0 (or_introl eq_refl) O1).
  - destruct (IH d0 HS' HD) as [I1 I2]. split.
    + intros p q r [<-|Hp] Ho; [|exact (I1 p q r Hp Ho)]. destruct (No q r). now apply Same.
    + intros q Hq. apply I2. intros p r Hp. apply Hq. now right.
Qed.
Lemma given_is args p : In p (flat_map paths_of args) <-> given args p.
Proof.
  rewrite in_flat_map. unfold given. split.
  - intros (a & I & J). destruct a as [f names|f|]; cbn [paths_of] in J; [|destruct J as [<-|[]]; now left|destruct J].
    apply in_map_iff in J. destruct J as (n & <- & J). right. now exists f, names, n.
  - intros [I|(f & names & n & I & J & ->)]; [exists (File p); split; [exact I|now left]|]. exists (Folder f names). split; [exact I|]. cbn [paths_of]. now apply in_map.
Qed.
Lemma main_both py3 o args d : apart o args -> (forall p q r, makes o args d p q r -> main py3 o args d q = Some (if py3 then Empty else Files r)) /\
  (forall q, (forall p r, ~ makes o args d p q r) -> main py3 o args d q = d q).
Proof.
  intros ap. unfold main. destruct (loop py3 o (given args) d ap (flat_map paths_of args) d) as [I1 I2]; [intros p; apply given_is|reflexivity|]. split.
  - intros p q r (G & H). apply (I1 p q r); [now apply given_is|exact H].
  - intros q Hq. apply I2. intros p r Hp Ho. apply (Hq p r). split; [now apply given_is|exact Ho].
Qed.
Theorem main_thm o args d : apart o args -> (forall p q r, makes o args d p q r -> main false o args d q = Some (Files r)) /\
  (forall q, (forall p r, ~ makes o args d p q r) -> main false o args d q = d q).
Proof. exact (main_both false o args d). Qed.
Theorem main3_thm o args d : apart o args -> (forall p q r, makes o args d p q r -> main true o args d q = Some Empty) /\
  (forall q, (forall p r, ~ makes o args d p q r) -> main true o args d q = d q).
Proof. exact (main_both true o args d). Qed.
Theorem keep_thm py3 o args d q : (forall p, given args p -> nzb_name p -> ~ place o p q) -> main py3 o args d q = d q.
Proof.
  intros H. unfold main. assert (G : forall p, In p (flat_map paths_of args) -> nzb_name p -> ~ place o p q) by (intros p Hp; apply H; now apply given_is).
  revert d G. generalize (flat_map paths_of args). intros ps. induction ps as [|a ps IH]; intros d G; [reflexivity|]. cbn [fold_left]. rewrite IH by (intros p Hp; apply G; now right).
  destruct (check_is py3 o d a) as [(q0 & r0 & (A & B & _) & ->)|(-> & _)]; [|reflexivity]. apply put_other. intros ->. exact (G a (or_introl eq_refl) A B).
Qed.
