(** FixFacts: proofs about the names of fixes. *)
From Verif Require Import Base BaseFacts Path PathSpec FsSpec FsFacts Sfv Dirs DirsSpec DirsFacts Store Capital WorkDir WorkDirSpec WorkDirFacts Fix FixSpec.

Lemma rest_all t : lang rest t.
Proof. apply inv_many_one. apply Forall_forall. reflexivity. Qed.
Lemma dot_is c : negb (c =? 10) = true <-> c <> 10.
Proof. rewrite negb_true_iff. apply N.eqb_neq. Qed.
Lemma dots_is t : lang (Many dot) t <-> ~ In 10 t.
Proof.
  unfold dot. rewrite inv_many_one, Forall_forall. split.
  - intros H I. apply H in I. discriminate I.
  - intros H c I. apply dot_is. intros ->. contradiction.
Qed.
Lemma around r n : ~ In 10 n -> (matches (Then (Many dot) (Then r rest)) n = true <-> exists x, lang r x /\ inside x n).
Proof.
  intros H. rewrite matches_lang, inv_then. split.
  - intros (a & u & -> & _ & X). apply inv_then in X. destruct X as (x & b & -> & X & _). exists x. split; [exact X|]. exists a, b. reflexivity.
  - intros (x & X & a & b & ->). exists a, (x ++ b). split; [reflexivity|]. split.
    + apply dots_is. intros I. apply H, in_or_app. now left.
    + apply inv_then. exists x, b. split; [reflexivity|]. split; [exact X|apply rest_all].
Qed.
Lemma then_assoc a b c t : lang (Then (Then a b) c) t <-> lang (Then a (Then b c)) t.
Proof.
  rewrite !inv_then. split.
  - intros (s & u & -> & X & C). apply inv_then in X. destruct X as (x & y & -> & A & B). exists x, (y ++ u). rewrite <- app_assoc. split; [reflexivity|]. split; [exact A|].
    apply inv_then. now exists y, u.
  - intros (s & u & -> & A & X). apply inv_then in X. destruct X as (y & z & -> & B & C). exists (s ++ y), z. rewrite <- app_assoc. split; [reflexivity|]. split; [|exact C].
    apply inv_then. now exists s, y.
Qed.
Lemma then_cong a b b' t : (forall u, lang b u <-> lang b' u) -> (lang (Then a b) t <-> lang (Then a b') t).
Proof. intros H. rewrite !inv_then. split; intros (s & u & E & A & B); exists s, u; apply H in B; auto. Qed.
Lemma match_cong r r' n : (forall t, lang r t <-> lang r' t) -> matches r n = true <-> matches r' n = true.
Proof. intros H. rewrite !matches_lang. apply H. Qed.
Lemma words_is t : lang fix_words t <-> exists w, In w ["sfv"; "ppf"; "sync"; "proof"; "proo"; "dir"; "nfo"; "interleaving"; "trackorder"]%string /\ t = str w.
Proof.
  unfold fix_words. rewrite !inv_or, !inv_word, inv_then. split.
  - intros [H|[H|[H|[H|[H|[H|[H|H]]]]]]]; try (eexists; split; [|exact H]; cbn [In]; tauto).
    destruct H as (s & u & -> & S & U). apply inv_word in S. apply inv_maybe in U. rewrite inv_word in U.
    destruct U as [-> | ->]; subst s; [exists "proo"%string|exists "proof"%string]; (split; [cbn [In]; tauto|reflexivity]).
  - intros (w & H & ->). cbn [In] in H. destruct H as [<-|[<-|[<-|[<-|[<-|[<-|[<-|[<-|[<-|[]]]]]]]]]]; try tauto;
      right; right; right; left; [exists (str "proo"), (str "f")|exists (str "proo"), []]; (split; [reflexivity|]); split; try (now apply inv_word); apply inv_maybe; [right; now apply inv_word|now left].
Qed.
Lemma lower_line n : ~ In 10 n -> ~ In 10 (lower n).
Proof.
  intros H I. apply in_map_iff in I. destruct I as (c & E & I). unfold lower1 in E. destruct (_ && _) eqn:B in E; [lia|]. subst c. contradiction.
Qed.
Lemma thing_is n : one_line n -> (icase (Then (Many dot) (Then fix_words (Then (maybe dot) (Then (Or (word "fix") (word "patch")) rest)))) n = true <-> thing_fix n).
Proof.
  intros H. unfold icase. pose proof (lower_line n H) as Hl.
  rewrite (match_cong _ (Then (Many dot) (Then (Then fix_words (Then (maybe dot) (Or (word "fix") (word "patch")))) rest))).
  2:{ intros t. apply then_cong. intros u. rewrite (then_assoc _ _ rest). apply then_cong. intros v. now rewrite (then_assoc _ _ rest). }
  rewrite (around _ _ Hl). unfold thing_fix. split.
  - intros (x & X & a & b & E). apply inv_then in X. destruct X as (w & y & -> & W & Y). apply inv_then in Y. destruct Y as (s & f & -> & S & F).
    apply words_is in W. destruct W as (w' & W & ->). apply inv_maybe in S. unfold dot in S. rewrite inv_one in S. apply inv_or in F. rewrite !inv_word in F.
    assert (exists f', f = str f' /\ In f' ["fix"; "patch"]%string) as (f' & -> & F') by (destruct F as [-> | ->]; eexists; (split; [reflexivity|cbn [In]; tauto])).
    exists a, w', s, f', b. split; [rewrite E, <- !app_assoc; reflexivity|]. split; [exact W|]. split; [|exact F'].
    destruct S as [-> |(c & -> & _)]; cbn [length]; lia.
  - intros (a & w & s & f & b & E & W & S & F). exists (str w ++ s ++ str f). split.
    + apply inv_then. exists (str w), (s ++ str f). split; [reflexivity|]. split; [apply words_is; now exists w|]. apply inv_then. exists s, (str f). split; [reflexivity|]. split.
      * apply inv_maybe. destruct s as [|c [|]]; [now left|right|cbn [length] in S; lia]. unfold dot. apply inv_one. exists c. split; [reflexivity|]. apply dot_is. intros ->.
        apply Hl. rewrite E. apply in_or_app. right. apply in_or_app. right. now left.
      * apply inv_or. rewrite !inv_word. cbn [In] in F. destruct F as [<-|[<-|[]]]; auto.
    + exists a, b. rewrite E, <- !app_assoc. reflexivity.
Qed.
Lemma plain_is n : one_line n -> (matches (Then (Many dot) (Then (word ".") (Then (Or (word "FiX") (word "FIX")) (Then (Or (word ".") (word "-")) rest)))) n = true <-> plain_fix n).
Proof.
  intros H. rewrite (match_cong _ (Then (Many dot) (Then (Then (word ".") (Then (Or (word "FiX") (word "FIX")) (Or (word ".") (word "-")))) rest))).
  2:{ intros t. apply then_cong. intros u. rewrite (then_assoc _ _ rest). apply then_cong. intros v. now rewrite (then_assoc _ _ rest). }
  rewrite (around _ _ H). unfold plain_fix. split.
  - intros (x & X & I). apply inv_then in X. destruct X as (d & y & -> & D & Y). apply inv_then in Y. destruct Y as (f & e & -> & F & E). apply inv_word in D. apply inv_or in F, E. rewrite !inv_word in F, E. subst d.
    destruct F as [-> | ->], E as [-> | ->]; do 2 eexists; (split; [|split; [|exact I]]; cbn [In]; tauto).
  - intros (f & e & F & E & I). exists (str "." ++ str f ++ str e). split; [|exact I]. apply inv_then. exists (str "."), (str f ++ str e). split; [reflexivity|]. split; [now apply inv_word|].
    apply inv_then. exists (str f), (str e). split; [reflexivity|]. rewrite !inv_or, !inv_word. cbn [In] in F, E. destruct F as [<-|[<-|[]]], E as [<-|[<-|[]]]; auto.
Qed.
Lemma char_in c a b (n : text) : ~ In 10 n -> inside (a ++ [c] ++ b) n -> lang dot [c].
Proof.
  intros H (x & y & ->). apply inv_one. exists c. split; [reflexivity|]. apply dot_is. intros ->. apply H. apply in_or_app. right. apply in_or_app. left. apply in_or_app. right. now left.
Qed.
Lemma dvdr_is n : one_line n -> (matches (Then (Many dot) (Then (word ".DVDR") (Then dot (Then (word "Fix-") rest)))) n = true \/
  matches (Then (Many dot) (Then (word ".DVDR") (Then dot (Then (word "REPACK") (Then dot (Then (word "Fix-") rest)))))) n = true <-> dvdr_fix n).
Proof.
  intros H. rewrite (match_cong _ (Then (Many dot) (Then (Then (word ".DVDR") (Then dot (word "Fix-"))) rest))).
  2:{ intros t. apply then_cong. intros u. rewrite (then_assoc _ _ rest). apply then_cong. intros v. now rewrite (then_assoc _ _ rest). }
  rewrite (match_cong (Then (Many dot) (Then (word ".DVDR") (Then dot (Then (word "REPACK") _)))) (Then (Many dot) (Then (Then (word ".DVDR") (Then dot (Then (word "REPACK") (Then dot (word "Fix-"))))) rest))).
  2:{ intros t. apply then_cong. intros u. symmetry. etransitivity; [apply then_assoc|]. apply then_cong. intros v. etransitivity; [apply then_assoc|].
      apply then_cong. intros w. etransitivity; [apply then_assoc|]. apply then_cong. intros z. apply then_assoc. }
  rewrite !(around _ _ H). unfold dvdr_fix. split.
  - intros [(x & X & I)|(x & X & I)].
    + apply inv_then in X. destruct X as (a & y & -> & A & Y). apply inv_then in Y. destruct Y as (c & b & -> & C & B). apply inv_word in A, B. apply inv_one in C. destruct C as (c' & -> & _). subst. exists c'. now left.
    + apply inv_then in X. destruct X as (a & y & -> & A & Y). apply inv_then in Y. destruct Y as (c & z & -> & C & Y). apply inv_then in Y. destruct Y as (r & v & -> & R & Y). apply inv_then in Y. destruct Y as (d & b & -> & D & B).
      apply inv_word in A, B, R. apply inv_one in C, D. destruct C as (c' & -> & _), D as (d' & -> & _). subst. exists c'. right. now exists d'.
  - intros (c & [I|(d & I)]); [left|right].
    + exists (str ".DVDR" ++ [c] ++ str "Fix-"). split; [|exact I]. apply inv_then. exists (str ".DVDR"), ([c] ++ str "Fix-"). split; [reflexivity|]. split; [now apply inv_word|].
      apply inv_then. exists [c], (str "Fix-"). split; [reflexivity|]. split; [exact (char_in c _ _ n H I)|now apply inv_word].
    + exists (str ".DVDR" ++ [c] ++ str "REPACK" ++ [d] ++ str "Fix-"). split; [|exact I].
      apply inv_then. exists (str ".DVDR"), ([c] ++ str "REPACK" ++ [d] ++ str "Fix-"). split; [reflexivity|]. split; [now apply inv_word|].
      apply inv_then. exists [c], (str "REPACK" ++ [d] ++ str "Fix-"). split; [reflexivity|]. split; [exact (char_in c _ _ n H I)|].
      apply inv_then. exists (str "REPACK"), ([d] ++ str "Fix-"). split; [reflexivity|]. split; [now apply inv_word|].
      apply inv_then. exists [d], (str "Fix-"). split; [reflexivity|]. split; [|now apply inv_word].
      apply (char_in d (str ".DVDR" ++ [c] ++ str "REPACK") (str "Fix-") n H). exact I.
Qed.
Theorem fix_thm n : one_line n -> is_storable_fix n = true <-> fix_name n.
Proof.
  intros H. unfold is_storable_fix, fix_name. rewrite !orb_true_iff, (thing_is n H), (plain_is n H), <- (dvdr_is n H). tauto.
Qed.
Lemma mem_is a l : mem_text a l = false <-> ~ In a l.
Proof.
  unfold mem_text. rewrite <- Bool.not_true_iff_false, existsb_exists. split.
  - intros X I. apply X. exists a. split; [exact I|apply teqb_refl].
  - intros X (y & I & E). apply teqb_eq in E. now subst y.
Qed.
Theorem store_thm lowf cwd listdir entries c0 r w rs sfv rar l d have :
  first_is 47 cwd = true -> denotes [] cwd c0 -> folder r -> denotes c0 r rs -> folder w -> apart r w -> one_line (basename r) -> entries sfv = Ok l ->
  alone lowf listdir d r (fst rar) (snd rar) ->
  exists d' new, store_fix lowf cwd listdir entries w r d [sfv] [file_in r rar] have = Ok (d', have ++ new) /\ (new = [] \/ new = [file_in w rar]) /\
  (In (file_in w rar) new <-> ~ In (file_in w rar) have /\ fix_name (basename r) /\ ~ In (basename r) rar_file_blacklist /\ exists f, l = [f]) /\
  (In (file_in w rar) new -> d' (file_in w rar) = d (file_in r rar)) /\ (forall p, ~ In p new -> d' p = d p).
Proof.
  intros A B C D E F H El Al.
  destruct (srs_copied lowf cwd listdir c0 r w rs A B C D E F [rar] d have) as (d' & new & S & Nd & I & Cont & Oth); [constructor; [exact Al|constructor]|].
  assert (Same : forall b : bool, (b = false -> ~ (fix_name (basename r) /\ ~ In (basename r) rar_file_blacklist /\ exists f, l = [f])) -> b = false ->
    exists d' new, Ok (d, have) = Ok (d', have ++ new) /\ (new = [] \/ new = [file_in w rar]) /\
    (In (file_in w rar) new <-> ~ In (file_in w rar) have /\ fix_name (basename r) /\ ~ In (basename r) rar_file_blacklist /\ exists f, l = [f]) /\
    (In (file_in w rar) new -> d' (file_in w rar) = d (file_in r rar)) /\ (forall p, ~ In p new -> d' p = d p)).
  { intros b X ->. exists d, []. rewrite app_nil_r. split; [reflexivity|]. split; [now left|]. split; [|split; [intros []|reflexivity]].
    split; [intros []|]. intros (_ & Y). exfalso. now apply X. }
  unfold store_fix. destruct (is_storable_fix (basename r)) eqn:Fx.
  2:{ apply (Same false); [|reflexivity]. intros _ (Y & _). apply (fix_thm _ H) in Y. congruence. }
  rewrite El. cbn [bind]. destruct ((lenN l =? 1) && negb (mem_text (basename r) rar_file_blacklist)) eqn:G.
  2:{ apply (Same false); [|reflexivity]. intros _ (_ & Y & f & ->). apply mem_is in Y. rewrite Y in G. discriminate G. }
  rewrite andb_true_iff, negb_true_iff, mem_is in G. destruct G as (G1 & G2).
  assert (L : exists f, l = [f]). { apply N.eqb_eq in G1. unfold lenN in G1. destruct l as [|f [|]]; cbn [length] in G1; try lia. now exists f. }
  apply (fix_thm _ H) in Fx. cbn [map copy_srs] in S.
  destruct (work_dir_file cwd (file_in r rar) r w) as [dest|e] eqn:Ew; [|discriminate S]. cbn [bind] in *.
  exists d', new. split; [|split; [|split; [|split]]].
  - destruct (mem_text dest have); [exact S|]. destruct (copy_to_working_dir _ _ _ _ _ _ _) as [y|e] eqn:Ey; [|discriminate S]. exact S.
  - destruct new as [|n new]; [now left|right].
    assert (Al' : forall p, In p (n :: new) -> p = file_in w rar). { intros p Hp. apply I in Hp. destruct Hp as (_ & x & [<-|[]] & ->). reflexivity. }
    destruct new as [|n' new]; [rewrite (Al' n (or_introl eq_refl)); reflexivity|]. exfalso. inversion Nd as [|? ? Nn _]. apply Nn. left.
    rewrite (Al' n (or_introl eq_refl)), (Al' n' (or_intror (or_introl eq_refl))). reflexivity.
  - rewrite I. split; [intros (Y & _); auto|]. intros (Y & _). split; [exact Y|]. exists rar. split; [now left|reflexivity].
  - intros Y. apply Cont; [now left|]. apply I in Y. tauto.
  - exact Oth.
Qed.
(** other numbers of SFV files or of RAR sets *)
Theorem other_thm lowf cwd listdir entries r w d sfvs rars have : (length sfvs <> 1 \/ length rars <> 1)%nat ->
  store_fix lowf cwd listdir entries w r d sfvs rars have = Ok (d, have).
Proof.
  intros H. unfold store_fix. destruct (is_storable_fix _); [|reflexivity]. destruct sfvs as [|a [|]], rars as [|b [|]]; try reflexivity. cbn [length] in H. lia.
Qed.
