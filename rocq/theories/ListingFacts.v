(** ListingFacts: proofs about listed releases. *)
From Verif Require Import Base BaseFacts Path PathSpec PathFacts Sfv Dirs DirsSpec DirsFacts SrrFacts FixSpec FixFacts RetagFacts Listing ListingSpec.
From Verif Require RarexeFacts.

Lemma ext_is s x : lang (ext s) x <-> exists c, x = [c] ++ str s /\ c <> 10.
Proof.
  unfold ext, dot. rewrite inv_then. split.
  - intros (a & b & -> & A & B). apply inv_one in A. destruct A as (c & -> & C). apply inv_word in B. subst b. exists c. split; [reflexivity|now apply dot_is].
  - intros (c & -> & C). exists [c], (str s). split; [reflexivity|]. split; [|now apply inv_word]. apply inv_one. exists c. split; [reflexivity|now apply dot_is].
Qed.
Lemma exts_is x : lang video_exts x <-> exists c e, x = [c] ++ str e /\ c <> 10 /\ In e ["mp4"; "m4v"; "avi"; "mkv"; "wmv"; "vob"; "m2ts"; "ts"; "mpeg"; "mpg"; "m2v"; "m2p"]%string.
Proof.
  unfold video_exts. rewrite !inv_or, !ext_is. split.
  - intros H. repeat (destruct H as [(c & -> & C)|H]; [do 2 eexists; split; [reflexivity|]; split; [exact C|]; cbn [In]; tauto|]).
    destruct H as (c & -> & C). do 2 eexists; split; [reflexivity|]; split; [exact C|]; cbn [In]; tauto.
  - intros (c & e & -> & C & I). cbn [In] in I. repeat (destruct I as [<-|I]; [eauto 20|]). destruct I.
Qed.
Lemma vidext_is n : one_line n -> vidext n = true <-> video_name n.
Proof.
  intros H. apply lower_line in H. unfold vidext, icase, video_name. rewrite matches_lang, inv_then. generalize dependent (lower n). intros m H. split.
  - intros (a & u & -> & _ & U). apply inv_then in U. destruct U as (x & e & -> & X & E). apply exts_is in X. destruct X as (c & w & -> & _ & I).
    unfold eol in E. apply inv_maybe in E. destruct E as [-> |E].
    + exists a, c, w. rewrite app_nil_r. now split.
    + exfalso. apply inv_one in E. destruct E as (z & -> & Z). apply N.eqb_eq in Z. subst z. apply H. apply in_or_app. right. apply in_or_app. right. now left.
  - intros (a & c & w & -> & I). exists a, ([c] ++ str w). split; [reflexivity|]. split.
    + apply dots_is. intros X. apply H. apply in_or_app. now left.
    + apply inv_then. exists ([c] ++ str w), []. split; [now rewrite app_nil_r|]. split; [|apply inv_maybe; now left]. apply exts_is. exists c, w. split; [reflexivity|]. split; [|exact I].
      intros ->. apply H. apply in_or_app. right. now left.
Qed.
Lemma nfo_is f : teqb (lower (last4 f)) (str ".nfo") = true <-> exists a, lower f = a ++ str ".nfo".
Proof.
  replace (lower (last4 f)) with (last4 (lower f)) by (unfold last4, lower; rewrite !dropN_skipn, !lenN_length, map_length; now rewrite skipn_map).
  generalize (lower f) as l. intros l. rewrite teqb_eq. unfold last4. split.
  - intros E. exists (takeN (lenN l - 4) l). rewrite <- E. symmetry. apply takeN_dropN.
  - intros (a & ->). rewrite lenN_app. replace (lenN a + lenN (str ".nfo") - 4) with (lenN a) by (change (lenN (str ".nfo")) with 4; lia). now apply dropN_app_exact.
Qed.
Lemma shown_is o r : title (o_paths o) r (shown o r).
Proof.
  unfold shown, title. destruct (o_paths o); [reflexivity|]. destruct (in_dec N.eq_dec 47 r) as [I|I].
  - assert (X : exists a e, r = a ++ 47 :: e /\ ~ In 47 e).
    { clear - I. induction r as [|c r IH]; [destruct I|]. destruct (in_dec N.eq_dec 47 r) as [J|J].
      - destruct (IH J) as (a & e & -> & H). now exists (c :: a), e.
      - destruct I as [->|I]; [|contradiction]. now exists [], r. }
    destruct X as (a & e & -> & H). rewrite basename_sep by exact H. split; [exact H|]. right. now exists a.
  - rewrite basename_nosep by exact I. split; [exact I|now left].
Qed.
Section Os.
Variable listdir : text -> result (list text).
Lemma no_nfo_is r b : no_nfo listdir r = Ok b -> (b = true <-> lacks_nfo listdir r).
Proof.
  unfold no_nfo. intros H. bindinv H. apply ok_inj in H. subst b. unfold lacks_nfo. rewrite negb_true_iff, <- Bool.not_true_iff_false, existsb_exists. split.
  - intros X. exists v. split; [exact E|]. intros f a I Ef. apply X. exists f. split; [exact I|]. apply nfo_is. now exists a.
  - intros (l & El & X) (f & I & Ef). rewrite E in El. apply ok_inj in El. subst l. apply nfo_is in Ef. destruct Ef as (a & Ef). exact (X f a I Ef).
Qed.
Lemma no_sample_is r b : (forall d l, listdir d = Ok l -> Forall plain l /\ Forall one_line l) -> no_sample listdir r = Ok b -> (b = true <-> lacks_sample listdir r).
Proof.
  intros Hn H. unfold no_sample in H. bindinv H. destruct (Hn _ _ E) as [Pl _].
  assert (S : forall d, teqb (lower d) (str "sample") = false <-> lower d <> str "sample") by (intros d; apply teqb_neq).
  destruct (find (fun d => teqb (lower d) (str "sample")) v) as [d|] eqn:Fd.
  - pose proof (find_some _ _ Fd) as (Id & Ed). apply teqb_eq in Ed. apply RarexeFacts.find_first in Fd. destruct Fd as (a & c & -> & Fa).
    bindinv H. apply ok_inj in H. subst b. assert (Pd : plain d) by (rewrite Forall_forall in Pl; auto). rewrite (pjoin_plain r d Pd) in E0. destruct (Hn _ _ E0) as [_ Ol].
    rewrite negb_true_iff, <- Bool.not_true_iff_false, existsb_exists. rewrite Forall_forall in Ol, Fa. split.
    + intros X. exists (a ++ d :: c). split; [exact E|]. right. exists a, d, c, v. split; [reflexivity|]. split; [intros x I; apply S, Fa, I|]. split; [exact Ed|]. split; [exact E0|].
      intros f I Vf. apply X. exists f. split; [exact I|]. apply vidext_is; auto.
    + intros (l & El & X) (f & I & Vf). rewrite E in El. apply ok_inj in El. subst l. apply vidext_is in Vf; [|auto]. destruct X as [X|(a' & d' & c' & fs & Es & A & D & L & V)].
      * apply (X d); [|exact Ed]. apply in_or_app. right. now left.
      * assert (d' = d) as ->.
        { revert a' Es A. clear - Fa Ed D S. induction a as [|x a IH]; intros [|x' a'] Es A; cbn [app] in Es.
          - injection Es as ->. reflexivity.
          - injection Es as Ex _. subst x'. exfalso. apply (A d); [now left|exact Ed].
          - injection Es as Ex _. subst x. exfalso. assert (Q : teqb (lower d') (str "sample") = false) by (apply Fa; now left). apply S in Q. contradiction.
          - injection Es as Ex Es. apply (IH (fun y Hy => Fa y (or_intror Hy)) a' Es). intros y Hy. apply A. now right. }
        rewrite L in E0. apply ok_inj in E0. subst fs. exact (V f I Vf).
  - apply ok_inj in H. subst b. split; [|reflexivity]. intros _. exists v. split; [exact E|]. left. intros d I Ed. pose proof (find_none _ _ Fd d I) as Q. cbn in Q. apply S in Q. contradiction.
Qed.
Theorem list_thm o rs : (forall d l, listdir d = Ok l -> Forall plain l /\ Forall one_line l) -> forall out, list_all listdir o rs = Ok out -> printed listdir (o_list o) (o_nfo o) (o_sample o) (o_paths o) rs out.
Proof.
  intros Hn. induction rs as [|r rs IH]; intros out H; cbn [list_all] in H; [apply ok_inj in H; subst out; constructor|].
  destruct (list_one listdir o r) as [v|] eqn:E; [|discriminate H]. cbn [bind] in H. destruct (list_all listdir o rs) as [w|] eqn:F; [|discriminate H]. cbn [bind] in H. apply ok_inj in H. subst out.
  unfold list_one in E. destruct (if o_nfo o then no_nfo listdir r else Ok false) as [n|] eqn:En; [|discriminate E]. cbn [bind] in E.
  destruct (if o_sample o then no_sample listdir r else Ok false) as [m|] eqn:Em; [|discriminate E]. cbn [bind] in E. apply ok_inj in E. subst v. rewrite <- !app_assoc.
  apply (pr_cons _ _ _ _ _ r rs (shown o r)); [apply shown_is| | | |now apply IH]; unfold line_if.
  - destruct (o_list o); intuition congruence.
  - destruct (o_nfo o).
    + apply no_nfo_is in En. destruct n; [left|right]; intuition congruence.
    + apply ok_inj in En. subst n. right. intuition congruence.
  - destruct (o_sample o).
    + apply no_sample_is in Em; [|exact Hn]. destruct m; [left|right]; intuition congruence.
    + apply ok_inj in Em. subst m. right. intuition congruence.
Qed.
Theorem total_thm o rs : (forall r, In r rs -> exists l, listdir r = Ok l /\ forall d, In d l -> lower d = str "sample" -> exists fs, listdir (in_folder r d) = Ok fs) ->
  (forall d l, listdir d = Ok l -> Forall plain l) -> exists out, list_all listdir o rs = Ok out.
Proof.
  intros H Hp. induction rs as [|r rs IH]; [now exists []|]. destruct IH as (w & F); [intros x I; apply H; now right|]. destruct (H r (or_introl eq_refl)) as (l & L & S).
  assert (Q : exists b, no_sample listdir r = Ok b).
  { unfold no_sample. rewrite L. cbn [bind]. destruct (find _ l) as [d|] eqn:Fd; [|now exists true]. apply find_some in Fd. destruct Fd as [I D]. apply teqb_eq in D.
    pose proof (Hp _ _ L) as P. rewrite Forall_forall in P. rewrite (pjoin_plain r d (P d I)). destruct (S d I D) as (fs & ->). cbn [bind]. now eexists. }
  destruct Q as (m & Q). assert (M : exists b, no_nfo listdir r = Ok b) by (unfold no_nfo; rewrite L; cbn [bind]; now eexists). destruct M as (n & M).
  cbn [list_all]. unfold list_one. rewrite M, Q, F. destruct (o_nfo o), (o_sample o); cbn [bind]; now eexists.
Qed.
End Os.
