(** SelectFacts: which images of a release are stored. *)
From Verif Require Import Base BaseFacts Path PathFacts Glob Verify VerifySpec VerifyFacts Dirs DirsSpec DirsFacts Select SelectSpec.

(** ** Names *)
Lemma ends_in_spec e n : ends_in e n = true <-> exists b, n = b ++ e.
Proof.
  unfold ends_in. split.
  - intros H. apply starts_inv in H. destruct H as (r & E). exists (rev r). rewrite <- (rev_involutive n), E, rev_app_distr, rev_involutive. reflexivity.
  - intros (b & ->). rewrite rev_app_distr. apply starts_app.
Qed.
Lemma ends_named s n : lower (str s) = str s -> ends_in (lower (str s)) (lower n) = true <-> named s n.
Proof. intros ->. rewrite ends_in_spec. reflexivity. Qed.
Lemma begins_spec l n : begins l n = true <-> exists z r, In z l /\ n = z ++ r.
Proof.
  unfold begins. rewrite existsb_exists. split.
  - intros (z & I & H). apply starts_inv in H. destruct H as (r & ->). now exists z, r.
  - intros (z & r & I & ->). exists z. split; [exact I|apply starts_app].
Qed.
Lemma unnumbered_strip n : unnumbered n (strip_zeros n).
Proof.
  unfold strip_zeros.
  assert (K : forall l k, (forall z, In z l -> lenN z = k /\ In z (map str NUMBERS)) -> begins l n = true -> unnumbered n (dropN k n)).
  { intros l k H B. apply begins_spec in B. destruct B as (z & r & I & ->). destruct (H z I) as [L J]. apply in_map_iff in J. destruct J as (w & <- & J).
    left. exists w. split; [exact J|]. now rewrite dropN_app_exact by now symmetry. }
  destruct (begins [str "00-"; str "00_"; str "01-"; str "01_"] n) eqn:B1.
  { eapply K; [|exact B1]. intros z Z. repeat (destruct Z as [<- |Z]; [vm_compute; split; [reflexivity|tauto]|]). contradiction. }
  destruct (begins [str "000-"; str "000_"; str "001-"; str "001_"] n) eqn:B2.
  { eapply K; [|exact B2]. intros z Z. repeat (destruct Z as [<- |Z]; [vm_compute; split; [reflexivity|tauto]|]). contradiction. }
  destruct (begins [str "0000-"; str "0000_"; str "0001-"; str "0001_"] n) eqn:B3.
  { eapply K; [|exact B3]. intros z Z. repeat (destruct Z as [<- |Z]; [vm_compute; split; [reflexivity|tauto]|]). contradiction. }
  right. split; [reflexivity|]. intros z x I E.
  assert (Q : begins [str "00-"; str "00_"; str "01-"; str "01_"] n = true \/ begins [str "000-"; str "000_"; str "001-"; str "001_"] n = true \/ begins [str "0000-"; str "0000_"; str "0001-"; str "0001_"] n = true).
  { rewrite !begins_spec. unfold NUMBERS in I. repeat (destruct I as [<- |I]; [first [left; eexists _, x; split; [|exact E]; vm_compute; tauto|right; left; eexists _, x; split; [|exact E]; vm_compute; tauto|right; right; eexists _, x; split; [|exact E]; vm_compute; tauto]|]). contradiction. }
  rewrite B1, B2, B3 in Q. intuition discriminate.
Qed.
Lemma number_det z z' r r' : In z NUMBERS -> In z' NUMBERS -> str z ++ r = str z' ++ r' -> r = r'.
Proof.
  intros I J E. unfold NUMBERS in *. 
  repeat (destruct I as [<- |I]; [repeat (destruct J as [<- |J]; [vm_compute in E; congruence|]); contradiction|]). contradiction.
Qed.
Lemma unnumbered_is n r : unnumbered n r <-> r = strip_zeros n.
Proof.
  split; [|intros ->; apply unnumbered_strip]. pose proof (unnumbered_strip n) as K. intros [(z & I & E)|[-> H]]; destruct K as [(z' & I' & E')|[E' H']].
  - subst n. exact (number_det z z' _ _ I I' E').
  - exfalso. eapply H'; eauto.
  - exfalso. eapply H; eauto.
  - now symmetry.
Qed.
Lemma split_app c a b : split c (a ++ c :: b) = split c a ++ split c b.
Proof.
  induction a as [|x a IH].
  - cbn [app split]. destruct (split_cons_nonempty c b) as (w & ws & ->). now rewrite N.eqb_refl.
  - cbn [app split]. rewrite IH. destruct (split_cons_nonempty c a) as (w & ws & ->). cbn [app]. now destruct (x =? c).
Qed.
Lemma group_is n g : group_of n g <-> g = after_dash n.
Proof.
  assert (K : forall n g, group_of n g -> g = after_dash n).
  { clear. intros n g [N [->|(b & ->)]]; unfold after_dash; [now rewrite split_nosep|]. rewrite split_app, (split_nosep 45 g) by exact N. now rewrite last_last. }
  split; [apply K|]. intros ->.
  destruct (in_dec N.eq_dec 45 n) as [I|I].
  - apply in_rev in I. destruct (cut_at 45 (rev n)) as [[x y]|] eqn:C.
    + apply cut_at_some in C. destruct C as [C N]. apply (f_equal (@rev _)) in C. rewrite rev_involutive, rev_app_distr in C. cbn [rev] in C. rewrite <- app_assoc in C. cbn [app] in C.
      assert (G : group_of n (rev x)) by (split; [now rewrite <- in_rev|right; now exists (rev y)]). now rewrite <- (K _ _ G).
    + exfalso. clear - I C. revert C I. generalize (rev n). intros l. induction l as [|c l IH]; [intros; contradiction|]. cbn [cut_at]. destruct (N.eqb_spec c 45) as [->|X]; [discriminate|].
      destruct (cut_at 45 l) as [[? ?]|]; [discriminate|]. intros _ [E|I]; [congruence|auto].
  - assert (G : group_of n n) by (split; auto). now rewrite <- (K _ _ G).
Qed.

(** ** Files *)
Lemma get_files_in e t : tree_ok t -> forall root, path_ok root -> files_ok root t -> forall p, In p (get_files e root t) <-> exists d n, file_at root t d n p /\ ends_in (lower e) (lower n) = true.
Proof.
  induction t as [files dirs IH] using tree_induction. intros Hok root Hr Hf p. inversion Hok as [f d ND Hd]; subst.
  destruct (Hf _ _ _ (at_here root (Dir files dirs))) as [_ Hn]. cbn [get_files]. rewrite in_app_iff, in_map_iff, in_concat. split.
  - intros [(n & <- & I)|(l & J & I)].
    + apply filter_In in I. destruct I as [I E]. exists root, n. split; [|exact E]. exists files, dirs. split; [constructor|]. split; [exact I|]. destruct (Hn n I). now apply pjoin_ok.
    + apply in_map_iff in J. destruct J as ([n s] & <- & J). cbn [fst snd] in I. destruct (Hd n s J) as (A & B & _ & C). destruct (pjoin_ok root n Hr A B) as [P Q]. rewrite P in I.
      apply (IH n s J C _ Q) in I.
      * destruct I as (d & m & (fs & ds & X & Y & Z) & E). exists d, m. split; [|exact E]. exists fs, ds. split; [|now split]. now apply (at_sub root files dirs n s).
      * intros d fs ds X. apply (Hf d fs ds). now apply (at_sub root files dirs n s).
  - intros (d & n & (fs & ds & X & Y & Z) & E). inversion X; subst.
    + left. exists n. split; [destruct (Hn n Y); now apply pjoin_ok|]. apply filter_In. now split.
    + right. match goal with I : In (?m, ?s) dirs |- _ => rename I into J; rename m into k; rename s into u end. destruct (Hd k u J) as (A & B & _ & C). destruct (pjoin_ok root k Hr A B) as [P Q].
      exists (get_files e (root ++ 47 :: k) u). split.
      * apply in_map_iff. exists (k, u). split; [cbn [fst snd]; now rewrite P|exact J].
      * apply (IH k u J C _ Q); [|exists d, n; split; [now exists fs, ds|exact E]]. intros d' fs' ds' W. apply (Hf d' fs' ds'). now apply (at_sub root files dirs k u).
Qed.
Lemma at_longer root t d u : at_path root t d u -> d = root \/ exists r, d = root ++ 47 :: r.
Proof. induction 1 as [|p fs ds n s q u I _ IH]; [now left|]. right. destruct IH as [->|(r & ->)]; [now exists n|]. exists (n ++ 47 :: r). rewrite <- !app_assoc. reflexivity. Qed.
Lemma first_part (a b x y : text) : ~ In 47 a -> ~ In 47 b -> a ++ 47 :: x = b ++ 47 :: y -> a = b.
Proof.
  revert b. induction a as [|c a IH]; intros [|d b] A B E; [reflexivity|injection E as <- _; exfalso; apply B; now left|injection E as -> _; exfalso; apply A; now left|].
  injection E as <- E. f_equal. apply (IH b); [intros X; apply A; now right|intros X; apply B; now right|exact E].
Qed.
Lemma NoDup_both {A} (a b : list A) : NoDup a -> NoDup b -> (forall x, In x a -> ~ In x b) -> NoDup (a ++ b).
Proof.
  induction 1 as [|x a N ND IH]; intros B H; [exact B|]. cbn [app]. constructor.
  - rewrite in_app_iff. intros [X|X]; [contradiction|]. apply (H x); [now left|exact X].
  - apply IH; [exact B|]. intros y Y. apply H. now right.
Qed.
Lemma NoDup_parts {A B} (f : A -> list B) l : NoDup l -> (forall a, In a l -> NoDup (f a)) -> (forall a b x, In a l -> In b l -> In x (f a) -> In x (f b) -> a = b) -> NoDup (concat (map f l)).
Proof.
  induction 1 as [|a l Na ND IH]; intros H1 H2; cbn [map concat]; [constructor|]. apply NoDup_both.
  - apply H1. now left.
  - apply IH; [intros b I; apply H1; now right|]. intros b c x I J. apply H2; now right.
  - intros x X Y. apply in_concat in Y. destruct Y as (m & J & Y). apply in_map_iff in J. destruct J as (b & <- & J).
    apply Na. now rewrite (H2 a b x (or_introl eq_refl) (or_intror J) X Y).
Qed.
Lemma get_files_once e t : tree_ok t -> forall root, path_ok root -> files_ok root t -> NoDup (get_files e root t).
Proof.
  induction t as [files dirs IH] using tree_induction. intros Hok root Hr Hf. inversion Hok as [f d ND Hd]; subst.
  destruct (Hf _ _ _ (at_here root (Dir files dirs))) as [Nf Hn].
  assert (Sub : forall k u, In (k, u) dirs -> path_ok (root ++ 47 :: k) /\ pjoin root k = root ++ 47 :: k /\ files_ok (root ++ 47 :: k) u).
  { intros k u J. destruct (Hd k u J) as (A & B & _ & C). destruct (pjoin_ok root k Hr A B) as [P Q]. split; [exact Q|]. split; [exact P|].
    intros d fs ds X. apply (Hf d fs ds). now apply (at_sub root files dirs k u). }
  assert (Under : forall k u p, In (k, u) dirs -> In p (get_files e (pjoin root k) u) -> exists r, p = root ++ 47 :: k ++ 47 :: r).
  { intros k u p J I. destruct (Sub k u J) as (Q & P & F). rewrite P in I. destruct (Hd k u J) as (_ & _ & _ & C). apply (get_files_in e u C _ Q F) in I.
    destruct I as (d & n & (fs & ds & X & Y & ->) & _). apply at_longer in X. destruct X as [->|(r & ->)].
    - exists n. rewrite <- app_assoc. reflexivity.
    - exists (r ++ 47 :: n). rewrite <- !app_assoc. reflexivity. }
  cbn [get_files]. apply NoDup_both.
  - assert (forall l, NoDup l -> (forall n, In n l -> In n files) -> NoDup (map (pjoin root) l)) as K.
    { clear - Hn Hr. induction 1 as [|n l N ND IH]; intros H; cbn [map]; constructor.
      - intros X. apply in_map_iff in X. destruct X as (m & E & I). destruct (Hn n (H n (or_introl eq_refl))) as [A1 A2]. destruct (Hn m (H m (or_intror I))) as [B1 B2].
        rewrite (proj1 (pjoin_ok root n Hr A1 A2)), (proj1 (pjoin_ok root m Hr B1 B2)) in E. apply app_inv_head in E. injection E as ->. contradiction.
      - apply IH. intros m I. apply H. now right. }
    apply K; [now apply NoDup_filter|]. intros n I. now apply filter_In in I.
  - apply NoDup_parts.
    + now apply NoDup_map_inv in ND.
    + intros [k u] J. cbn [fst snd]. destruct (Sub k u J) as (Q & P & F). rewrite P. destruct (Hd k u J) as (_ & _ & _ & C). now apply (IH k u J C).
    + intros [k u] [k' u'] x J J' X X'. cbn [fst snd] in X, X'. destruct (Under k u x J X) as (r & ->). destruct (Under k' u' _ J' X') as (r' & E). apply app_inv_head in E. injection E as E.
      destruct (Hd k u J) as (_ & A & _). destruct (Hd k' u' J') as (_ & A' & _). pose proof (first_part k k' r r' A A' E) as ->.
      f_equal. clear - ND J J'. induction dirs as [|[n s] dirs IH]; [contradiction|]. cbn [map fst] in ND. inversion ND as [|? ? N1 N2]; subst.
      destruct J as [J|J], J' as [J'|J']; [congruence|exfalso; injection J as -> ->; apply N1; now apply (in_map fst) in J'|exfalso; injection J' as -> ->; apply N1; now apply (in_map fst) in J|auto].
  - intros x X Y. apply in_map_iff in X. destruct X as (n & <- & I). apply filter_In in I. destruct I as [I _]. destruct (Hn n I) as [A1 A2].
    apply in_concat in Y. destruct Y as (m & J & Y). apply in_map_iff in J. destruct J as ([k u] & <- & J). cbn [fst snd] in Y. destruct (Under k u _ J Y) as (r & E).
    rewrite (proj1 (pjoin_ok root n Hr A1 A2)) in E. apply app_inv_head in E. injection E as ->. apply A2. apply in_app_iff. right. now left.
Qed.

(** ** One image *)
Lemma file_base root t d n p : files_ok root t -> file_at root t d n p -> p = d ++ 47 :: n /\ basename p = n /\ n <> [] /\ ~ In 47 n.
Proof. intros F (fs & ds & X & Y & ->). destruct (F d fs ds X) as [_ H]. destruct (H n Y) as [A B]. split; [reflexivity|]. split; [|now split]. now apply basename_sep. Qed.
Lemma lower_app a b : lower (a ++ b) = lower a ++ lower b. Proof. apply map_app. Qed.
Lemma lower1_slash c : lower1 c = 47 <-> c = 47.
Proof. unfold lower1. destruct ((65 <=? c) && (c <=? 90)) eqn:E; [|reflexivity]. apply andb_true_iff in E. lia. Qed.
Lemma lower_slash n : In 47 (lower n) <-> In 47 n.
Proof. unfold lower. rewrite in_map_iff. split; [intros (c & E & I); apply (proj1 (lower1_slash c)) in E; now subst c|intros I; now exists 47]. Qed.
Lemma no_ext_spec p s e : p = s ++ e -> ext_of p e -> no_ext p = s.
Proof. intros -> X. apply ext_of_is in X. unfold no_ext. rewrite <- X, lenN_app. apply takeN_app_exact. lia. Qed.
Lemma ext_split p : exists s, p = s ++ extension p /\ no_ext p = s.
Proof.
  assert (K : exists s, p = s ++ extension p).
  { destruct (extension_ok p) as [a b c (E & _)|_]; [exists (a ++ b); now rewrite <- app_assoc|exists p; now rewrite app_nil_r]. }
  destruct K as (s & E). exists s. split; [exact E|]. now apply no_ext_spec with (e := extension p); [|apply extension_ok].
Qed.
Lemma tail_part (a x b y : text) : a ++ 47 :: x = b ++ y -> ~ In 47 y -> exists z, x = z ++ y.
Proof.
  revert b. induction a as [|c a IH]; intros b E N.
  - destruct b as [|c b]; [cbn in E; subst y; exfalso; apply N; now left|]. injection E as _ E. now exists b.
  - destruct b as [|e b]; [cbn in E; exfalso; apply N; rewrite <- E; right; apply in_app_iff; right; now left|]. injection E as _ E. now apply (IH b).
Qed.
(** a name that ends with "folder" before the extension *)
Lemma folder_spec d n : ~ In 47 n -> image n -> ends_in (str "folder") (no_ext (lower (d ++ 47 :: n))) = true <-> folder_image n.
Proof.
  intros S I. set (p := lower (d ++ 47 :: n)).
  assert (P : p = lower d ++ 47 :: lower n) by (unfold p; rewrite lower_app; reflexivity).
  assert (Sl : ~ In 47 (lower n)) by now rewrite lower_slash.
  destruct (ext_split p) as (s & E & ->). rewrite ends_in_spec. unfold folder_image. split.
  - intros (b & ->). destruct (extension_ok p) as [a x c D|N].
    + destruct D as (_ & _ & _ & Dc & Dd & _). rewrite P, <- app_assoc in E. change (str "folder" ++ 46 :: c) with (str "folder." ++ c) in E.
      apply tail_part in E; [|intros X; apply in_app_iff in X; destruct X as [X|X]; [vm_compute in X; intuition discriminate|contradiction]].
      destruct E as (z & E). now exists z, c.
    + exfalso. rewrite app_nil_r in E. destruct I as (e & Ie & (b' & Eb)). rewrite P, Eb, app_comm_cons, app_assoc in E. apply (f_equal (fun l => hd 0 (rev l))) in E. rewrite !rev_app_distr in E.
      repeat (destruct Ie as [<- |Ie]; [vm_compute in E; discriminate E|]). contradiction.
  - intros (b & x & E1 & Nx).
    assert (D : dotted p (lower d ++ [47]) (b ++ str "folder") x).
    { split; [rewrite P, E1, <- !app_assoc; reflexivity|]. split; [right; now exists (lower d)|]. rewrite E1, !in_app_iff in Sl. split; [rewrite in_app_iff; intros [X|X]; [tauto|vm_compute in X; intuition discriminate]|]. split; [tauto|]. split; [exact Nx|].
      apply Exists_app. right. now left. }
    rewrite (dotted_ext _ _ _ _ D) in E. destruct D as (D & _). rewrite E in D at 1. rewrite app_assoc in D. apply app_inv_tail in D. exists ((lower d ++ [47]) ++ b). rewrite D, <- !app_assoc. reflexivity.
Qed.
Lemma skip_spec d n : ~ In 47 n -> image n -> always_skip (d ++ 47 :: n) = true <-> player n.
Proof.
  intros S I. unfold always_skip, player. rewrite !orb_true_iff, folder_spec by assumption. rewrite basename_sep by exact S.
  replace (basename (lower (d ++ 47 :: n))) with (lower n) by (rewrite lower_app; cbn [lower map]; symmetry; apply basename_sep; fold (lower n); now rewrite lower_slash).
  rewrite space_spec, part_of_spec. unfold within.
  assert (K : starts_with N.eqb (str "albumart_{") (lower n) = true <-> exists r, lower n = str "albumart_{" ++ r).
  { split; [apply starts_inv|intros (r & ->); apply starts_app]. }
  rewrite K. tauto.
Qed.
Lemma shown_spec p : let l := lower p in
  part_of (str "proof") l || part_of (str "sample") l || part_of (str "/cover") l || part_of (str "/screenshots") l || part_of (str "/compare") l = true <-> shown p.
Proof.
  cbv zeta. rewrite !orb_true_iff, !part_of_spec. unfold shown, within. split.
  - intros [[[[H|H]|H]|H]|H]; eexists; (split; [|exact H]); cbn; tauto.
  - intros (s & I & H). repeat (destruct I as [<- |I]; [tauto|]). contradiction.
Qed.
Lemma first_spec n : begins [str "00"; str "01"; str "001"] n = true <-> first_name n.
Proof.
  rewrite begins_spec. unfold first_name. split.
  - intros (z & r & I & ->). destruct I as [<- |[<- |[<- |[]]]]; [exists r; now left|exists r; now right|exists (49 :: r); now left].
  - intros (r & [->| ->]); [exists (str "00"), r|exists (str "01"), r]; (split; [cbn; tauto|reflexivity]).
Qed.
Section Disk.
Variables (size : text -> N) (cover : text -> bool) (packed : text -> list text) (root : text) (t : tree).
Hypotheses (Hok : tree_ok t) (Hr : path_ok root) (Hf : files_ok root t).
Lemma good_spec b : In b (good_names root t) <-> exists x, tells root t (b ++ x) /\ lenN x = 4.
Proof.
  unfold good_names. rewrite in_map_iff.
  assert (Q : forall e g, lenN (str e) = 4 -> named e g -> exists b x, g = b ++ x /\ lenN x = 4 /\ takeN (lenN g - 4) g = b).
  { intros e g L (b' & E). exists (takeN (lenN g - 4) g), (dropN (lenN g - 4) g). split; [symmetry; apply takeN_dropN|]. split; [|reflexivity]. rewrite lenN_dropN.
    apply (f_equal lenN) in E. rewrite lenN_app, L in E. unfold lower in E. rewrite lenN_length, map_length, <- lenN_length in E. lia. }
  assert (G : forall g, In g (get_files (str ".sfv") root t ++ get_files (str ".nfo") root t ++ get_files (str ".m3u") root t ++ get_files (str ".rar") root t) <-> exists d n, file_at root t d n g /\ exists e, In e [".sfv"; ".nfo"; ".m3u"; ".rar"]%string /\ named e n).
  { intros g. rewrite !in_app_iff, !(get_files_in _ t Hok root Hr Hf). split.
    - intros [(d & n & F & E)|[(d & n & F & E)|[(d & n & F & E)|(d & n & F & E)]]]; exists d, n; (split; [exact F|]); apply ends_named in E; try reflexivity; eexists; (split; [|exact E]); cbn; tauto.
    - intros (d & n & F & e & I & E). repeat (destruct I as [<- |I]; [first [left; exists d, n; split; [exact F|now apply ends_named]|right; left; exists d, n; split; [exact F|now apply ends_named]|right; right; left; exists d, n; split; [exact F|now apply ends_named]|right; right; right; exists d, n; split; [exact F|now apply ends_named]]|]). contradiction. }
  split.
  - intros (g & E & I). apply G in I. destruct I as (d & n & F & e & I & M). destruct (file_base root t d n g Hf F) as (_ & B & _). cbv zeta in E. rewrite B in E.
    destruct (Q e n) as (b' & x & E1 & L & T); [repeat (destruct I as [<- |I]; [reflexivity|]); contradiction|exact M|]. rewrite T in E. subst b'. exists x. split; [|exact L]. exists d, g, e. now rewrite <- E1.
  - intros (x & (d & g & e & F & I & M) & L). exists g. split; [|apply G; exists d, (b ++ x); split; [exact F|now exists e]].
    destruct (file_base root t d _ g Hf F) as (_ & B & _). cbv zeta. rewrite B, lenN_app, L. apply takeN_app_exact. lia.
Qed.
Lemma alike_spec d n p : file_at root t d n p -> existsb (similar1 p) (good_names root t) = true <-> alike root t p n.
Proof.
  intros F. destruct (file_base root t d n p Hf F) as (_ & B & _). rewrite existsb_exists. unfold alike.
  assert (K : forall b, similar1 p b = true <-> lower (takeN 10 b) = takeN 10 n \/ (exists r r', unnumbered b r /\ unnumbered n r' /\ lower (takeN 10 r) = takeN 10 r') \/ (exists s e k, p = s ++ e /\ ext_of p e /\ group_of (lower b) k /\ group_of s k)).
  { intros b. unfold similar1. rewrite !orb_true_iff, !teqb_eq, B.
    assert (U : lower (takeN 10 (strip_zeros b)) = takeN 10 (strip_zeros n) <-> exists r r', unnumbered b r /\ unnumbered n r' /\ lower (takeN 10 r) = takeN 10 r').
    { split; [intros E; exists (strip_zeros b), (strip_zeros n); split; [apply unnumbered_strip|]; split; [apply unnumbered_strip|exact E]|].
      intros (r & r' & A & A' & E). apply unnumbered_is in A, A'. now subst. }
    assert (V : after_dash (lower b) = after_dash (no_ext p) <-> exists s e k, p = s ++ e /\ ext_of p e /\ group_of (lower b) k /\ group_of s k).
    { split.
      - intros E. destruct (ext_split p) as (s & E1 & E2). exists s, (extension p), (after_dash (lower b)). split; [exact E1|]. split; [apply extension_ok|]. rewrite !group_is. split; [reflexivity|]. now rewrite E, E2.
      - intros (s & e & k & E1 & E2 & G1 & G2). rewrite group_is in G1, G2. rewrite (no_ext_spec p s e E1 E2). congruence. }
    rewrite U, V. tauto. }
  split.
  - intros (b & I & S). apply good_spec in I. destruct I as (x & T & L). exists b, x. split; [exact T|]. split; [exact L|]. now apply K.
  - intros (b & x & T & L & S). exists b. split; [apply good_spec; now exists x|now apply K].
Qed.
Lemma keep_spec more d n p : file_at root t d n p -> image n ->
  keep_image size cover more root t p = true <-> shown p \/ (~ player n /\ (more = true \/ first_name n \/ (100000 < size p /\ cover p = false /\ alike root t p n))).
Proof.
  intros F I. destruct (file_base root t d n p Hf F) as (Ep & B & _ & S). unfold keep_image. cbv zeta.
  pose proof (shown_spec p) as H. cbv zeta in H. destruct (part_of (str "proof") (lower p) || _ || _ || _ || _); [split; [left; now apply H|reflexivity]|].
  assert (~ shown p) as NS by (intros X; apply H in X; discriminate). 
  pose proof (skip_spec d n S I) as Sk. rewrite <- Ep in Sk. destruct (always_skip p).
  - split; [discriminate|]. intros [X|[X _]]; [contradiction|]. exfalso. apply X. now apply Sk.
  - assert (~ player n) as NP by (intros X; apply Sk in X; discriminate).
    assert (store_rls_root size cover root t p = true <-> first_name n \/ (100000 < size p /\ cover p = false /\ alike root t p n)) as St.
    { unfold store_rls_root. rewrite B. pose proof (first_spec n) as Fi. destruct (begins _ n); [split; [left; now apply Fi|reflexivity]|].
      assert (~ first_name n) as NF by (intros X; apply Fi in X; discriminate).
      destruct (100000 <? size p) eqn:Z; [|split; [discriminate|intros [X|X]; [contradiction|lia]]].
      rewrite andb_true_iff, (alike_spec d n p F), negb_true_iff. split; [intros [X1 X2]; right; split; [lia|now split]|intros [X|(_ & X1 & X2)]; [contradiction|now split]]. }
    rewrite orb_true_iff, St. tauto.
Qed.
Lemma image_named n : existsb (fun e => ends_in (lower e) (lower n)) PROOF_IMAGE_EXTS = true <-> image n.
Proof.
  rewrite existsb_exists. unfold image. split.
  - intros (e & I & H). repeat (destruct I as [<- |I]; [eexists; split; [|apply ends_named; [|exact H]; reflexivity]; cbn; tauto|]). contradiction.
  - intros (e & I & H). exists (str e). split; [repeat (destruct I as [<- |I]; [cbn; tauto|]); contradiction|]. apply ends_named; [repeat (destruct I as [<- |I]; [reflexivity|]); contradiction|exact H].
Qed.
Lemma images_in p : In p (concat (map (fun e => get_files e root t) PROOF_IMAGE_EXTS)) <-> exists d n, file_at root t d n p /\ image n.
Proof.
  rewrite in_concat. split.
  - intros (l & J & I). apply in_map_iff in J. destruct J as (e & <- & J). apply (get_files_in e t Hok root Hr Hf) in I. destruct I as (d & n & F & E). exists d, n. split; [exact F|]. apply image_named. apply existsb_exists. now exists e.
  - intros (d & n & F & I). apply image_named, existsb_exists in I. destruct I as (e & I & E). exists (get_files e root t). split; [now apply (in_map (fun e => get_files e root t))|]. apply (get_files_in e t Hok root Hr Hf). now exists d, n.
Qed.
Lemma rar_spec p : keep_rar packed p = true <-> within "proof" p /\ exists m, In m (packed p) /\ image m.
Proof.
  unfold keep_rar, within. rewrite andb_true_iff, part_of_spec, existsb_exists.
  assert (K : forall m, mem_text (lower (last4 m)) PROOF_IMAGE_EXTS = true <-> image m).
  { intros m. unfold mem_text. rewrite existsb_exists. replace (lower (last4 m)) with (last4 (lower m)) by (unfold last4, lower; rewrite !dropN_skipn, !lenN_length, map_length; now rewrite skipn_map).
    unfold image. split.
    - intros (e & I & E). repeat (destruct I as [<- |I]; [eexists; split; [|apply ends4_spec; [|exact E]; reflexivity]; cbn; tauto|]). contradiction.
    - intros (e & I & E). exists (str e). split; [repeat (destruct I as [<- |I]; [cbn; tauto|]); contradiction|]. apply (ends4_spec e m); [repeat (destruct I as [<- |I]; [reflexivity|]); contradiction|exact E]. }
  split; (intros [H (m & I & E)]; split; [exact H|]; exists m; split; [exact I|]; now apply K).
Qed.
Lemma proof_files more p : In p (get_proof_files size cover packed more root t) <-> exists d n, file_at root t d n p /\
  ((image n /\ (shown p \/ (~ player n /\ (more = true \/ first_name n \/ (100000 < size p /\ cover p = false /\ alike root t p n))))) \/
   (named ".rar" n /\ within "proof" p /\ exists m, In m (packed p) /\ image m)).
Proof.
  unfold get_proof_files. rewrite in_app_iff, !filter_In, images_in, (get_files_in _ t Hok root Hr Hf), rar_spec. split.
  - intros [[(d & n & F & I) K]|[(d & n & F & E) K]]; exists d, n; (split; [exact F|]).
    + left. split; [exact I|]. now apply (keep_spec more d n p F I).
    + right. split; [now apply ends_named in E|exact K].
  - intros (d & n & F & [[I K]|[E K]]).
    + left. split; [now exists d, n|]. now apply (keep_spec more d n p F I).
    + right. split; [exists d, n; split; [exact F|now apply ends_named]|exact K].
Qed.
Lemma ext_differs e e' n : lenN e = lenN e' -> ends_in e n = true -> ends_in e' n = true -> e = e'.
Proof.
  intros L A B. apply ends_in_spec in A, B. destruct A as (a & ->), B as (b & E).
  assert (H : lenN a = lenN b) by (apply (f_equal lenN) in E; rewrite !lenN_app in E; lia).
  apply (f_equal (dropN (lenN a))) in E. rewrite dropN_app_exact in E by reflexivity. rewrite H, dropN_app_exact in E by reflexivity. exact E.
Qed.
Lemma in_both e e' p : lenN e = lenN e' -> lower e = e -> lower e' = e' -> In p (get_files e root t) -> In p (get_files e' root t) -> e = e'.
Proof.
  intros L Le Le' A B. apply (get_files_in _ t Hok root Hr Hf) in A, B. destruct A as (d & n & F & E), B as (d' & n' & F' & E').
  destruct (file_base _ _ _ _ _ Hf F) as (_ & B1 & _), (file_base _ _ _ _ _ Hf F') as (_ & B2 & _). rewrite B1 in B2. subst n'. rewrite Le in E. rewrite Le' in E'. now apply (ext_differs e e' (lower n)).
Qed.
Lemma proof_once more : NoDup (get_proof_files size cover packed more root t).
Proof.
  unfold get_proof_files. apply NoDup_both.
  - apply NoDup_filter, NoDup_parts.
    + unfold PROOF_IMAGE_EXTS. repeat (constructor; [cbn; intuition discriminate|]). constructor.
    + intros e _. now apply get_files_once.
    + assert (W : forall e, In e PROOF_IMAGE_EXTS -> lenN e = 4 /\ lower e = e) by (intros e I; repeat (destruct I as [<- |I]; [split; reflexivity|]); contradiction).
      intros a b x I J. destruct (W a I), (W b J). apply in_both; congruence.
  - apply NoDup_filter. now apply get_files_once.
  - intros x X Y. apply filter_In in X, Y. destruct X as [X _], Y as [Y _]. apply in_concat in X. destruct X as (l & J & X). apply in_map_iff in J. destruct J as (e & <- & J).
    assert (W : lenN e = 4 /\ lower e = e /\ e <> str ".rar") by (repeat (destruct J as [<- |J]; [split; [reflexivity|split; [reflexivity|discriminate]]|]); contradiction).
    destruct W as (W1 & W2 & W3). apply W3. now apply (in_both e (str ".rar") x).
Qed.
(** an image with the name of a file that tells names *)
Lemma same_kept more d n p b x e : file_at root t d n p -> image n -> ~ player n -> tells root t (b ++ x) -> lenN x = 4 -> n = b ++ 46 :: e -> ~ In 46 e -> lower b = b -> 10 <= lenN b \/ In 45 b ->
  100000 < size p -> cover p = false -> In p (get_proof_files size cover packed more root t).
Proof.
  intros F I NP T L En Ne Lb C Z Cv. apply proof_files. exists d, n. split; [exact F|]. left. split; [exact I|]. right. split; [exact NP|]. right. right. split; [exact Z|]. split; [exact Cv|].
  exists b, x. split; [exact T|]. split; [exact L|]. destruct C as [C|C].
  - left. rewrite En, takeN_app_le by exact C. rewrite <- Lb at 2. unfold lower. rewrite !takeN_firstn. symmetry. apply firstn_map.
  - right. right. destruct (file_base _ _ _ _ _ Hf F) as (Ep & _ & _ & S). rewrite En, in_app_iff in S.
    exists (d ++ 47 :: b), (46 :: e), (after_dash b). split; [rewrite Ep, En, <- app_assoc; reflexivity|]. split; [|split].
    + apply (ext_dot p (d ++ [47]) b e). split; [rewrite Ep, En, <- app_assoc; reflexivity|]. split; [right; now exists d|]. split; [tauto|]. split; [intros X; apply S; right; now right|]. split; [exact Ne|].
      apply Exists_exists. exists 45. split; [exact C|discriminate].
    + rewrite Lb. now apply group_is.
    + destruct (proj2 (group_is b (after_dash b)) eq_refl) as [G [G1|(a & G1)]]; [rewrite <- G1 in G; contradiction|]. split; [exact G|]. right. exists (d ++ 47 :: a). rewrite G1 at 1. rewrite <- app_assoc. reflexivity.
Qed.
End Disk.
Lemma proof_files' size cover packed root t more p : tree_ok t -> files_ok root t -> dir_path root -> In p (get_proof_files size cover packed more root t) <-> exists d n, file_at root t d n p /\
  ((image n /\ (shown p \/ (~ player n /\ (more = true \/ first_name n \/ (100000 < size p /\ cover p = false /\ alike root t p n))))) \/
   (named ".rar" n /\ within "proof" p /\ exists m, In m (packed p) /\ image m)).
Proof. intros A B C. now apply proof_files; [|apply dir_path_ok|]. Qed.
Lemma proof_once' size cover packed root t more : tree_ok t -> files_ok root t -> dir_path root -> NoDup (get_proof_files size cover packed more root t).
Proof. intros A B C. now apply proof_once; [|apply dir_path_ok|]. Qed.
Lemma same_kept' size cover packed root t more d n p b x e : tree_ok t -> files_ok root t -> dir_path root ->
  file_at root t d n p -> image n -> ~ player n -> tells root t (b ++ x) -> lenN x = 4 -> n = b ++ 46 :: e -> ~ In 46 e -> lower b = b -> 10 <= lenN b \/ In 45 b ->
  100000 < size p -> cover p = false -> In p (get_proof_files size cover packed more root t).
Proof. intros A B C. apply same_kept; auto. now apply dir_path_ok. Qed.
