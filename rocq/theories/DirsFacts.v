(** DirsFacts: lemmas about directories with releases. *)
From Verif Require Import Base BaseFacts Path PathFacts Sfv Dirs DirsSpec.
From Coq Require Import Permutation Sorted.

(** ** Patterns *)
Inductive lang : re -> text -> Prop :=
| l_empty : lang Empty []
| l_one p c : p c = true -> lang (One p) [c]
| l_then a b s t : lang a s -> lang b t -> lang (Then a b) (s ++ t)
| l_left a b s : lang a s -> lang (Or a b) s
| l_right a b s : lang b s -> lang (Or a b) s
| l_none a : lang (Many a) []
| l_more a s t : lang a s -> lang (Many a) t -> lang (Many a) (s ++ t).
Lemma inv_nothing t : lang Nothing t <-> False.
Proof. split; [intros H; inversion H|contradiction]. Qed.
Lemma inv_empty t : lang Empty t <-> t = [].
Proof. split; [intros H; now inversion H|intros ->; constructor]. Qed.
Lemma inv_one p t : lang (One p) t <-> exists c, t = [c] /\ p c = true.
Proof. split; [intros H; inversion H; subst; eauto|intros (c & -> & H); now constructor]. Qed.
Lemma inv_then a b t : lang (Then a b) t <-> exists s u, t = s ++ u /\ lang a s /\ lang b u.
Proof. split; [intros H; inversion H; subst; eauto|intros (s & u & -> & A & B); now constructor]. Qed.
Lemma inv_or a b t : lang (Or a b) t <-> lang a t \/ lang b t.
Proof. split; [intros H; inversion H; subst; auto|intros [H|H]; [now apply l_left|now apply l_right]]. Qed.
Lemma inv_many_cons a c t : lang (Many a) (c :: t) -> exists s u, t = s ++ u /\ lang a (c :: s) /\ lang (Many a) u.
Proof.
  remember (Many a) as r. remember (c :: t) as w. intros H. revert c t Heqw. induction H; intros c0 t0 E; try discriminate. injection Heqr as ->. destruct s as [|x s]; [cbn in E; now apply IHlang2|]. injection E as -> <-. eauto.
Qed.
Lemma can_end_lang r : can_end r = true <-> lang r [].
Proof.
  induction r; cbn.
  - rewrite inv_nothing. split; [discriminate|contradiction].
  - rewrite inv_empty. now split.
  - rewrite inv_one. split; [discriminate|]. now intros (c & E & _).
  - rewrite andb_true_iff, IHr1, IHr2, inv_then. split; [intros [A B]; now exists [], []|]. intros (s & u & E & A & B). symmetry in E. apply app_eq_nil in E. destruct E as [-> ->]. now split.
  - now rewrite orb_true_iff, IHr1, IHr2, inv_or.
  - split; [constructor|reflexivity].
Qed.
Lemma after_lang r c t : lang (after c r) t <-> lang r (c :: t).
Proof.
  revert t. induction r; intros t; cbn [after].
  - now rewrite !inv_nothing.
  - rewrite inv_nothing, inv_empty. now split.
  - rewrite inv_one. destruct (p c) eqn:E.
    + rewrite inv_empty. split; [intros ->; eauto|]. intros (d & X & _). now injection X as _ ->.
    + rewrite inv_nothing. split; [contradiction|]. intros (d & X & Y). injection X as <- ->. congruence.
  - assert (lang (Then r1 r2) (c :: t) <-> lang (Then (after c r1) r2) t \/ (can_end r1 = true /\ lang (after c r2) t)) as K.
    { rewrite !inv_then, can_end_lang. split.
      - intros (s & u & E & A & B). destruct s as [|x s].
        + cbn in E. subst u. right. split; [exact A|]. now apply IHr2.
        + injection E as <- ->. left. exists s, u. split; [reflexivity|]. split; [now apply IHr1|exact B].
      - intros [(s & u & -> & A & B)|[A B]].
        + exists (c :: s), u. split; [reflexivity|]. split; [now apply IHr1|exact B].
        + exists [], (c :: t). split; [reflexivity|]. split; [exact A|now apply IHr2]. }
    rewrite K. destruct (can_end r1); [rewrite inv_or; tauto|]. split; [auto|]. intros [H|[H _]]; [exact H|discriminate].
  - now rewrite !inv_or, IHr1, IHr2.
  - rewrite inv_then. split.
    + intros (s & u & -> & A & B). apply IHr in A. change (c :: s ++ u) with ((c :: s) ++ u). now constructor.
    + intros H. apply inv_many_cons in H. destruct H as (s & u & -> & A & B). exists s, u. split; [reflexivity|]. split; [now apply IHr|exact B].
Qed.
Lemma matches_lang t : forall r, matches r t = true <-> lang r t.
Proof. induction t as [|c t IH]; intros r; cbn [matches]; [apply can_end_lang|]. rewrite IH. apply after_lang. Qed.
Lemma inv_maybe r t : lang (maybe r) t <-> t = [] \/ lang r t.
Proof. unfold maybe. now rewrite inv_or, inv_empty. Qed.
Lemma inv_word s t : lang (word s) t <-> t = str s.
Proof.
  unfold word. generalize (str s) as l. intros l. revert t. induction l as [|c l IH]; intros t; cbn [fold_right]; [apply inv_empty|].
  rewrite inv_then. split.
  - intros (a & b & -> & A & B). apply inv_one in A. destruct A as (d & -> & E). apply IH in B. subst b. apply N.eqb_eq in E. now subst d.
  - intros ->. exists [c], l. split; [reflexivity|]. split; [apply inv_one; exists c; split; [reflexivity|apply N.eqb_refl]|now apply IH].
Qed.
Lemma inv_many_one p t : lang (Many (One p)) t <-> Forall (fun c => p c = true) t.
Proof.
  split.
  - induction t as [|c t IH]; intros H; [constructor|]. apply inv_many_cons in H. destruct H as (s & u & -> & A & B). apply inv_one in A. destruct A as (d & E & P). injection E as <- ->. constructor; [exact P|]. now apply IH.
  - induction 1; [constructor|]. change (x :: l) with ([x] ++ l). constructor; [now constructor|assumption].
Qed.
Lemma inv_plus p t : lang (Then (One p) (Many (One p))) t <-> t <> [] /\ Forall (fun c => p c = true) t.
Proof.
  rewrite inv_then. split.
  - intros (s & u & -> & A & B). apply inv_one in A. destruct A as (c & -> & P). apply inv_many_one in B. split; [discriminate|now constructor].
  - intros [N F]. destruct F as [|c t P F]; [congruence|]. exists [c], t. split; [reflexivity|]. split; [now constructor|now apply inv_many_one].
Qed.
Lemma name_char_spec c : alnum c || (c =? 46) || (c =? 95) = true <-> name_char c.
Proof. unfold alnum, name_char, is_digit. lia. Qed.
Lemma disk_spec n : DISK_FOLDERS n = true <-> disk_name n.
Proof.
  unfold DISK_FOLDERS, icase. rewrite matches_lang. unfold diskfolder, disk_name, digit. rewrite inv_then. split.
  - intros (x & nl & E & H & Hn). unfold eol in Hn. rewrite inv_maybe, inv_one in Hn. rewrite inv_then in H. destruct H as (kind & x1 & -> & Hk & H). rewrite inv_then in H. destruct H as (sep & x2 & -> & Hs & H).
    rewrite inv_then in H. destruct H as (x3 & x4 & -> & Hd & H). rewrite inv_one in Hd. destruct Hd as (d & -> & Hd). rewrite inv_then in H. destruct H as (more & rest & -> & Hm & Hr).
    exists kind, sep, d, more, rest, nl. rewrite !inv_or, !inv_word in Hk. rewrite inv_maybe, inv_one in Hs, Hm. rewrite inv_maybe in Hr. split; [rewrite E; repeat (rewrite <- app_assoc; cbn [app]); reflexivity|]. split; [|split; [|split; [|split; [|split]]]].
    + destruct Hk as [-> |[-> |[-> |[-> | ->]]]]; cbn; auto 7.
    + destruct Hs as [-> |(c & -> & Hc)]; [now left|]. assert (c = 46 \/ c = 95) as [-> | ->] by lia; cbn; auto.
    + unfold is_digit. lia.
    + destruct Hm as [-> |(c & -> & Hc)]; [now left|]. right. exists c. split; [reflexivity|]. unfold is_digit. lia.
    + destruct Hr as [-> |Hr]; [now left|]. right. rewrite inv_then in Hr. destruct Hr as (s & r & -> & Hs' & Hr). rewrite inv_maybe, inv_one in Hs'. apply inv_plus in Hr. destruct Hr as [Nr Fr]. exists s, r. split; [reflexivity|]. split; [|split; [exact Nr|]].
      * destruct Hs' as [-> |(c & -> & Hc)]; [now left|]. assert (c = 95 \/ c = 46 \/ c = 45) as [-> |[-> | ->]] by lia; cbn; auto.
      * eapply Forall_impl; [|exact Fr]. intros c Hc. now apply name_char_spec.
    + destruct Hn as [-> |(c & -> & Hc)]; [now left|]. right. apply N.eqb_eq in Hc. now subst c.
  - intros (kind & sep & d & more & rest & nl & E & Hk & Hs & Hd & Hm & Hr & Hn). exists (kind ++ sep ++ d :: more ++ rest), nl. split; [rewrite E; repeat (rewrite <- app_assoc; cbn [app]); reflexivity|]. split.
    2: { unfold eol. rewrite inv_maybe, inv_one. destruct Hn as [-> | ->]; [now left|right; now exists 10]. }
    rewrite inv_then. exists kind, (sep ++ d :: more ++ rest). split; [reflexivity|]. split.
    { rewrite !inv_or, !inv_word. destruct Hk as [<- |[<- |[<- |[<- |[<- |[]]]]]]; auto 7. }
    rewrite inv_then. exists sep, (d :: more ++ rest). split; [reflexivity|]. split.
    { rewrite inv_maybe, inv_one. destruct Hs as [<- |[<- |[<- |[]]]]; [now left| |]; right; eexists; (split; [reflexivity|reflexivity]). }
    rewrite inv_then. exists [d], (more ++ rest). split; [reflexivity|]. split. { rewrite inv_one. exists d. split; [reflexivity|]. unfold is_digit in Hd. lia. }
    rewrite inv_then. exists more, rest. split; [reflexivity|]. split.
    { rewrite inv_maybe, inv_one. destruct Hm as [-> |(e & -> & He)]; [now left|]. right. exists e. split; [reflexivity|]. unfold is_digit in He. lia. }
    rewrite inv_maybe. destruct Hr as [-> |(s & r & -> & Hs' & Nr & Fr)]; [now left|]. right. rewrite inv_then. exists s, r. split; [reflexivity|]. split.
    + rewrite inv_maybe, inv_one. destruct Hs' as [<- |[<- |[<- |[<- |[]]]]]; [now left| | |]; right; eexists; (split; [reflexivity|reflexivity]).
    + apply inv_plus. split; [exact Nr|]. eapply Forall_impl; [|exact Fr]. intros c Hc. now apply name_char_spec.
Qed.

(** ** is_release *)
Lemma tree_induction (P : tree -> Prop) : (forall files dirs, (forall n s, In (n, s) dirs -> P s) -> P (Dir files dirs)) -> forall t, P t.
Proof.
  intros H. fix IH 1. intros [files dirs]. apply H. induction dirs as [|[n s] dirs IHd]; intros m u; [contradiction|]. intros [E|E]; [injection E as _ <-; apply IH|exact (IHd m u E)].
Qed.
Lemma ends4_spec s n : lenN (str s) = 4 -> ends4 (str s) n = true <-> named s n.
Proof.
  intros L. unfold ends4, named, last4. rewrite teqb_eq. generalize (lower n) as l. intros l. split.
  - intros E. exists (takeN (lenN l - 4) l). rewrite <- E. symmetry. apply takeN_dropN.
  - intros (b & ->). rewrite lenN_app, L. replace (lenN b + 4 - 4) with (lenN b) by lia. now apply dropN_app_exact.
Qed.
Definition sfv_spec n := ends4_spec ".sfv" n eq_refl.
Definition nfo_spec n := ends4_spec ".nfo" n eq_refl.
Lemma not_both n : ends4 (str ".sfv") n = true -> ends4 (str ".nfo") n = true -> False.
Proof. unfold ends4. rewrite !teqb_eq. intros -> H. discriminate H. Qed.
Lemma part_spec n : RELEASE_FOLDERS n = true <-> part_name n.
Proof.
  unfold part_name. rewrite <- disk_spec. unfold RELEASE_FOLDERS, DISK_FOLDERS, icase. rewrite !matches_lang, !inv_then.
  assert (forall t, lang eol t <-> t = [] \/ t = [10]) as Eo.
  { intros t. unfold eol. rewrite inv_maybe, inv_one. split; (intros [H|H]; [now left|right]); [destruct H as (c & -> & H); apply N.eqb_eq in H; now subst c|subst t; now exists 10]. }
  split.
  - intros (w & nl & E & H & Hn). apply Eo in Hn. rewrite inv_or in H. destruct H as [H|H]; [left; exists w, nl; now rewrite Eo|]. right. exists w, nl. split; [exact E|]. split; [exact Hn|].
    rewrite !inv_or in H.
    repeat match goal with
    | H : _ \/ _ |- _ => destruct H as [H|H]
    | H : lang (Then _ _) _ |- _ => rewrite inv_then in H; destruct H as (? & ? & -> & ? & ?)
    | H : lang (maybe _) _ |- _ => rewrite inv_maybe in H
    | H : lang (word _) _ |- _ => rewrite inv_word in H; subst
    | H : ?x = [] |- _ => subst x
    end; cbn; repeat (try (left; reflexivity); right).
  - intros [(w & nl & H)|(w & nl & E & Hn & H)].
    + exists w, nl. rewrite inv_or. tauto.
    + exists w, nl. rewrite Eo. split; [exact E|]. split; [|exact Hn]. apply matches_lang. cbn in H. repeat (destruct H as [<- |H]; [vm_compute; reflexivity|]). contradiction.
Qed.
Lemma space_spec n : existsb (N.eqb 32) n = true <-> In 32 n.
Proof. rewrite existsb_exists. split; [intros (c & H & E); apply N.eqb_eq in E; now subst c|]. intros H. exists 32. now split. Qed.
Lemma release_name_spec n : release_name n <-> RELEASE_FOLDERS n = false /\ existsb (N.eqb 32) n = false.
Proof. unfold release_name. rewrite <- part_spec, <- space_spec, !not_true_iff_false. reflexivity. Qed.
Lemma scene_spec n : scene_file n = true <-> (named ".nfo" n /\ ~ site_nfo n) \/ named ".sfv" n.
Proof.
  unfold scene_file. rewrite andb_true_iff, orb_true_iff, nfo_spec, sfv_spec, negb_true_iff.
  assert (mem_text n NOT_SCENE = true <-> site_nfo n) as M.
  { unfold mem_text, site_nfo. rewrite existsb_exists. split; [intros (x & I & E); apply teqb_eq in E; now subst x|]. intros I. exists n. split; [exact I|apply teqb_refl]. }
  assert (site_nfo n -> ~ named ".sfv" n) as X.
  { intros I J. apply sfv_spec in J. unfold site_nfo in I. cbn [In] in I. repeat (destruct I as [<- |I]; [discriminate J|]). contradiction. }
  rewrite <- M, not_true_iff_false. rewrite <- M in X. destruct (mem_text n NOT_SCENE); [|tauto]. split; [intros [_ H]; discriminate|]. intros [[_ H]|H]; [discriminate|]. now apply X in H.
Qed.
Lemma holds_spec t : has_sfv t = true <-> holds ".sfv" t.
Proof. destruct t as [files dirs]. unfold has_sfv, holds. rewrite existsb_exists. split; intros (n & I & E); exists n; (split; [exact I|now apply sfv_spec]). Qed.
Lemma no_hyphen_spec n : In 45 n -> NO_HYPHEN n = false.
Proof.
  intros H. apply not_true_is_false. unfold NO_HYPHEN, icase. rewrite matches_lang, inv_then. intros (w & nl & E & W & L). apply inv_plus in W. destruct W as [_ W]. assert (In 45 (lower n)) as J by (unfold lower; apply in_map_iff; now exists 45).
  rewrite E in J. apply in_app_iff in J. destruct J as [J|J].
  - rewrite Forall_forall in W. specialize (W 45 J). discriminate W.
  - unfold eol in L. rewrite inv_maybe, inv_one in L. destruct L as [-> |(c & -> & X)]; [contradiction|]. destruct J as [-> |[]]. discriminate X.
Qed.
(** with an SFV file only the name matters *)
Lemma sfv_release name files dirs f : In f files -> named ".sfv" f -> is_release name (Dir files dirs) = true <-> release_name name.
Proof.
  intros I Hf. cbn [is_release]. assert (existsb scene_file files = true) as -> by (apply existsb_exists; exists f; split; [exact I|apply scene_spec; now right]). cbn [andb].
  assert (match files with [f] => ends4 (str ".nfo") f | _ => false end = false) as ->.
  { destruct files as [|g [|]]; try reflexivity. destruct I as [-> |[]]. apply not_true_is_false. intros X. apply sfv_spec in Hf. now apply (not_both f). }
  rewrite release_name_spec. destruct (RELEASE_FOLDERS name); cbn [negb]; [split; [discriminate|now intros [H _]]|]. destruct (existsb (N.eqb 32) name); split; intros H; try discriminate; auto; now destruct H.
Qed.
Lemma filter_length_le {A} (p : A -> bool) l : (length (filter p l) <= length l)%nat.
Proof. induction l as [|y l IH]; cbn [filter length]; [lia|]. destruct (p y); cbn [length]; lia. Qed.
Lemma filter_lt {A} (p : A -> bool) l x : In x l -> p x = false -> lenN (filter p l) < lenN l.
Proof.
  induction l as [|y l IH]; [contradiction|]. intros [-> |H] E; cbn [filter].
  - rewrite E. rewrite !lenN_length. cbn [length]. pose proof (filter_length_le p l). lia.
  - specialize (IH H E). destruct (p y); rewrite !lenN_length in *; cbn [length]; lia.
Qed.
(** what a release has *)
Lemma release_has name files dirs : is_release name (Dir files dirs) = true -> release_name name /\
  ((exists f, In f files /\ (named ".nfo" f \/ named ".sfv" f)) \/ exists n s, In (n, s) dirs /\ holds ".sfv" s).
Proof.
  cbn [is_release]. set (custom := if existsb scene_file files then [] else filter _ dirs). intros H.
  destruct ((if existsb scene_file files then true else _) && negb (RELEASE_FOLDERS name)) eqn:E; [|discriminate]. apply andb_true_iff in E. destruct E as [E F]. apply negb_true_iff in F. destruct (existsb (N.eqb 32) name) eqn:S; [discriminate|]. split; [apply release_name_spec; now split|]. clear H.
  destruct (existsb scene_file files) eqn:E1.
  { left. apply existsb_exists in E1. destruct E1 as (f & I & X). exists f. split; [exact I|]. apply scene_spec in X. tauto. }
  right. destruct (existsb (fun d => DISK_FOLDERS (fst d) && has_sfv (snd d)) dirs) eqn:E2.
  { apply existsb_exists in E2. destruct E2 as ([n s] & I & X). cbn in X. apply andb_true_iff in X. exists n, s. split; [exact I|]. now apply holds_spec. }
  destruct (lenN dirs <=? OLD_MP3_LIMIT); [|discriminate]. unfold all_sfv in E. destruct (filter (fun d => has_sfv (snd d)) custom) as [|[n s] r] eqn:E3; [cbn in E; lia|].
  assert (In (n, s) (filter (fun d => has_sfv (snd d)) custom)) as J by (rewrite E3; now left). apply filter_In in J. destruct J as [J X]. unfold custom in J. apply filter_In in J. exists n, s. split; [now apply J|]. now apply holds_spec.
Qed.
(** a pack of releases *)
Lemma pack_none name f dirs : named ".nfo" f -> (forall n s, In (n, s) dirs -> is_release n s = true \/ s = Dir [] []) -> (exists n s, In (n, s) dirs /\ In 45 n) -> is_release name (Dir [f] dirs) = false.
Proof.
  intros Hf Ha (n & s & I & Hh). cbn [is_release]. set (custom := if existsb scene_file [f] then [] else filter _ dirs). destruct (_ && negb (RELEASE_FOLDERS name)); [|reflexivity]. destruct (existsb (N.eqb 32) name); [reflexivity|].
  apply nfo_spec in Hf. rewrite Hf. assert (forallb (fun d => is_release (fst d) (snd d) || match listdir (snd d) with [] => true | _ => false end) dirs = true) as ->.
  { apply forallb_forall. intros [m u] J. cbn [fst snd]. destruct (Ha m u J) as [-> | ->]; [reflexivity|]. apply orb_true_r. }
  destruct dirs as [|d dirs]; [contradiction|]. set (l := d :: dirs) in *. cbn [andb]. destruct (_ && _); [|reflexivity]. unfold all_sfv. assert (lenN (filter (fun d0 => has_sfv (snd d0)) (filter (fun d0 => NO_HYPHEN (fst d0)) l)) < lenN l) as X.
  { pose proof (filter_lt (fun d => NO_HYPHEN (fst d)) l (n, s) I (no_hyphen_spec n Hh)) as Y. pose proof (filter_length_le (fun d0 => has_sfv (snd d0)) (filter (fun d0 => NO_HYPHEN (fst d0)) l)) as Z. rewrite !lenN_length in *. lia. }
  apply andb_false_iff. left. lia.
Qed.
(** a release with an NFO file whose parts are no releases *)
Lemma nfo_release name f dirs : named ".nfo" f -> ~ site_nfo f -> (dirs = [] \/ exists n s, In (n, s) dirs /\ is_release n s = false /\ s <> Dir [] []) -> is_release name (Dir [f] dirs) = true <-> release_name name.
Proof.
  intros Hf Hs Hd. cbn [is_release existsb]. assert (scene_file f = true) as -> by (apply scene_spec; auto). cbn [orb andb]. apply nfo_spec in Hf. rewrite Hf.
  assert (match dirs with [] => false | _ => forallb (fun d => is_release (fst d) (snd d) || match listdir (snd d) with [] => true | _ => false end) dirs end = false) as ->.
  { destruct Hd as [-> |(n & s & I & R & E)]; [reflexivity|]. destruct dirs as [|d dirs]; [reflexivity|]. apply not_true_is_false. intros X. rewrite forallb_forall in X. specialize (X _ I). cbn [fst snd] in X. rewrite R in X. destruct s as [[|] [|]]; cbn in X; congruence. }
  cbn [andb negb]. rewrite release_name_spec. destruct (RELEASE_FOLDERS name); cbn [negb]; [split; [discriminate|now intros [H _]]|]. destruct (existsb (N.eqb 32) name); split; intros H; try discriminate; auto; now destruct H.
Qed.
(** disks in directories of their own *)
Lemma disks_release name files dirs n s : In (n, s) dirs -> disk_name n -> holds ".sfv" s -> (forall f, files = [f] -> ~ named ".nfo" f) -> is_release name (Dir files dirs) = true <-> release_name name.
Proof.
  intros I Hn Hs Hf. cbn [is_release]. assert (match files with [f] => ends4 (str ".nfo") f | _ => false end = false) as ->.
  { destruct files as [|g [|]]; try reflexivity. apply not_true_is_false. intros X. apply nfo_spec in X. now apply (Hf g). }
  assert (existsb (fun d => DISK_FOLDERS (fst d) && has_sfv (snd d)) dirs = true) as ->. { apply existsb_exists. exists (n, s). split; [exact I|]. cbn. apply andb_true_iff. split; [now apply disk_spec|now apply holds_spec]. }
  rewrite release_name_spec. destruct (existsb scene_file files); cbn [andb]; destruct (RELEASE_FOLDERS name); cbn [negb]; try (split; [discriminate|now intros [H _]]); destruct (existsb (N.eqb 32) name); split; intros H; auto; try discriminate; now destruct H.
Qed.

(** ** Walking *)
Definition ab (p q : text) : Prop := q = p \/ below p q.
Lemma ab_trans p q r : ab p q -> ab q r -> ab p r.
Proof. intros [-> |(s & ->)] [-> |(s' & ->)]; [now left|right; now exists s'|right; now exists s|]. right. exists (s ++ 47 :: s'). now rewrite <- app_assoc. Qed.
Lemma below_ab p q r : below p q -> ab q r -> below p r.
Proof. intros (s & ->) [-> |(s' & ->)]; [now exists s|]. exists (s ++ 47 :: s'). now rewrite <- app_assoc. Qed.
Lemma app_cut (x y : text) : forall a b, ~ In 47 a -> ~ In 47 b -> (x = [] \/ exists s, x = 47 :: s) -> (y = [] \/ exists s, y = 47 :: s) -> a ++ x = b ++ y -> a = b.
Proof.
  induction a as [|c a IH]; intros b Na Nb Hx Hy E.
  - destruct b as [|d b]; [reflexivity|]. cbn in E. destruct Hx as [-> |(s & ->)]; [discriminate|]. injection E as <- _. exfalso. apply Nb. now left.
  - destruct b as [|d b].
    + cbn in E. destruct Hy as [-> |(s & ->)]; [discriminate|]. injection E as -> _. exfalso. apply Na. now left.
    + injection E as -> E. f_equal. apply IH; auto; intros X; [apply Na|apply Nb]; now right.
Qed.
(** no directory is in two others *)
Lemma ab_child p m n q : ~ In 47 m -> ~ In 47 n -> ab (p ++ 47 :: m) q -> ab (p ++ 47 :: n) q -> m = n.
Proof.
  intros Hm Hn A B. assert (exists x, (x = [] \/ exists s, x = 47 :: s) /\ q = (p ++ [47]) ++ m ++ x) as (x & Hx & Ex). { destruct A as [-> |(s & ->)]; [exists []|exists (47 :: s)]; (split; [eauto|]); rewrite <- !app_assoc; cbn [app]; now rewrite ?app_nil_r. }
  assert (exists x, (x = [] \/ exists s, x = 47 :: s) /\ q = (p ++ [47]) ++ n ++ x) as (y & Hy & Ey). { destruct B as [-> |(s & ->)]; [exists []|exists (47 :: s)]; (split; [eauto|]); rewrite <- !app_assoc; cbn [app]; now rewrite ?app_nil_r. }
  rewrite Ex in Ey. apply app_inv_head in Ey. exact (app_cut x y m n Hm Hn Hx Hy Ey).
Qed.
Lemma ab_parent l p n : ~ In 47 n -> ab l (p ++ 47 :: n) -> l = p ++ 47 :: n \/ ab l p.
Proof.
  intros Hn [H|(s & H)]; [now left|]. right.
  (* cut at the last slash *)
  revert l H. induction p as [|c p IH]; intros l H.
  - destruct l as [|d l]; cbn in H; [now left|]. injection H as <- H. exfalso. apply Hn. rewrite H. apply in_or_app. right. now left.
  - destruct l as [|d l]; cbn in H.
    + injection H as -> H. right. now exists p.
    + injection H as <- H. destruct (IH l H) as [-> |(x & ->)]; [now left|]. right. now exists x.
Qed.
Lemma not_below_self p : ~ below p p.
Proof. intros (s & E). apply (f_equal (@length N)) in E. rewrite app_length in E. cbn in E. lia. Qed.
Definition inc (a b : text) : Prop := ~ ab a b /\ ~ ab b a.
Lemma inc_child l p n : ~ In 47 n -> inc l p -> inc l (p ++ 47 :: n).
Proof.
  intros Hn [A B]. split.
  - intros X. apply ab_parent in X; [|exact Hn]. destruct X as [-> |X]; [|contradiction]. apply B. right. now exists n.
  - intros X. apply B. apply (ab_trans p (p ++ 47 :: n)); [right; now exists n|exact X].
Qed.
Lemma inc_sibling p m n q : ~ In 47 m -> ~ In 47 n -> m <> n -> ab (p ++ 47 :: m) q -> inc q (p ++ 47 :: n).
Proof.
  intros Hm Hn N A. split; intros X.
  - apply N. apply (ab_child p m n (p ++ 47 :: n)); auto; [now apply (ab_trans _ q)|now left].
  - apply N. apply (ab_child p m n q); auto.
Qed.

(** the names in order *)
Lemma put_map {A B} (F : text * A -> B) d (l : list (text * A)) : put (fst d, F d) (map (fun e => (fst e, F e)) l) = map (fun e => (fst e, F e)) (put d l).
Proof. induction l as [|e l IH]; [reflexivity|]. cbn [map put fst]. destruct (text_lt (fst d) (fst e)); [reflexivity|]. cbn [map]. now rewrite IH. Qed.
Lemma by_name_map {A B} (F : text * A -> B) (l : list (text * A)) : by_name (map (fun e => (fst e, F e)) l) = map (fun e => (fst e, F e)) (by_name l).
Proof. induction l as [|d l IH]; [reflexivity|]. cbn [map]. unfold by_name in *. cbn [fold_right]. rewrite IH. apply put_map. Qed.
Lemma put_perm {A} (d : text * A) l : Permutation (d :: l) (put d l).
Proof. induction l as [|e l IH]; [apply Permutation_refl|]. cbn [put]. destruct (text_lt _ _); [apply Permutation_refl|]. rewrite perm_swap. now constructor. Qed.
Lemma by_name_perm {A} (l : list (text * A)) : Permutation l (by_name l).
Proof. induction l as [|d l IH]; [constructor|]. unfold by_name in *. cbn [fold_right]. rewrite <- put_perm. now constructor. Qed.
Definition path_ok (p : text) : Prop := p <> [] /\ last_is 47 p = false.
Lemma pjoin_ok p n : path_ok p -> n <> [] -> ~ In 47 n -> pjoin p n = p ++ 47 :: n /\ path_ok (p ++ 47 :: n).
Proof.
  intros [Np L] Nn Hn. assert (first_is SLASH n = false) as F. { destruct n as [|c n]; [congruence|]. cbn. apply N.eqb_neq. intros ->. apply Hn. now left. }
  split.
  - unfold pjoin. rewrite F. unfold SLASH in *. rewrite L. destruct p as [|c p]; [congruence|]. rewrite lenN_length. cbn [length]. replace (N.of_nat (S (length p)) =? 0) with false by lia. reflexivity.
  - split; [now destruct p|]. unfold last_is. rewrite rev_app_distr. cbn [rev]. rewrite <- app_assoc. destruct (rev n) as [|c r] eqn:E.
    + apply (f_equal (@rev N)) in E. rewrite rev_involutive in E. now subst n.
    + cbn [app]. apply N.eqb_neq. intros ->. apply Hn. apply in_rev. rewrite E. now left.
Qed.
Lemma walk_eq p files dirs : path_ok p -> (forall n s, In (n, s) dirs -> n <> [] /\ ~ In 47 n) ->
  walk p (Dir files dirs) = (p, Dir files dirs) :: concat (map (fun d => walk (p ++ 47 :: fst d) (snd d)) (by_name dirs)).
Proof.
  intros Hp Hn. cbn [walk]. f_equal. rewrite (by_name_map (fun d => walk (pjoin p (fst d)) (snd d))). rewrite map_map. cbn [snd]. f_equal. apply map_ext_in. intros [n s] I. cbn [fst snd].
  apply (Permutation_in _ (Permutation_sym (by_name_perm dirs))) in I. destruct (Hn n s I) as [A B]. now rewrite (proj1 (pjoin_ok p n Hp A B)).
Qed.
(** what is walked *)
Lemma walk_in t : tree_ok t -> forall p, path_ok p -> forall q u, In (q, u) (walk p t) <-> at_path p t q u.
Proof.
  induction t as [files dirs IH] using tree_induction. intros Hok p Hp q u. inversion Hok as [f d ND Hd]; subst. rewrite walk_eq; [|exact Hp|intros n s I; destruct (Hd n s I); tauto]. split.
  - intros [E|I]; [injection E as <- <-; constructor|]. apply in_concat in I. destruct I as (l & J & K). apply in_map_iff in J. destruct J as ([n s] & <- & J). cbn [fst snd] in K. apply (Permutation_in _ (Permutation_sym (by_name_perm dirs))) in J. destruct (Hd n s J) as (A & B & _ & C). apply (IH n s J C) in K; [|now apply pjoin_ok]. now apply (at_sub p files dirs n s).
  - intros H. inversion H; subst; [now left|]. match goal with I : In (n, s) dirs |- _ => rename I into J end. right. apply in_concat. exists (walk (p ++ 47 :: n) s). split.
    + apply in_map_iff. exists (n, s). split; [reflexivity|]. now apply (Permutation_in _ (by_name_perm dirs)).
    + destruct (Hd n s J) as (A & B & _ & C). apply (IH n s J C); [now apply pjoin_ok|assumption].
Qed.
Lemma at_ab p t q u : at_path p t q u -> ab p q.
Proof. induction 1; [now left|]. apply (ab_trans _ (p ++ 47 :: n)); [right; now exists n|assumption]. Qed.

(** ** Blocked directories *)
Lemma starts_app p l : starts_with N.eqb p (p ++ l) = true.
Proof. induction p as [|c p IH]; [reflexivity|]. cbn. now rewrite N.eqb_refl. Qed.
Lemma starts_inv p : forall l, starts_with N.eqb p l = true -> exists r, l = p ++ r.
Proof. induction p as [|c p IH]; intros l H; [now exists l|]. destruct l as [|d l]; [discriminate|]. cbn in H. apply andb_true_iff in H. destruct H as [E H]. apply N.eqb_eq in E. subst d. destruct (IH l H) as (r & ->). now exists r. Qed.
Lemma part_of_spec a b : part_of a b = true <-> inside a b.
Proof.
  unfold part_of, inside. induction b as [|c b IH]; cbn [find_sub].
  - destruct (starts_with N.eqb a []) eqn:E.
    + split; [|reflexivity]. intros _. apply starts_inv in E. destruct E as (r & X). now exists [], r.
    + split; [discriminate|]. intros (x & y & X). symmetry in X. apply app_eq_nil in X. destruct X as [-> X]. apply app_eq_nil in X. destruct X as [-> ->]. discriminate.
  - destruct (starts_with N.eqb a (c :: b)) eqn:E.
    + split; [|reflexivity]. intros _. apply starts_inv in E. destruct E as (r & X). now exists [], r.
    + assert ((exists x y, c :: b = x ++ a ++ y) <-> exists x y, b = x ++ a ++ y) as ->.
      { split; intros (x & y & X); [|exists (c :: x), y; now rewrite X]. destruct x as [|d x]; [|injection X as _ X; now exists x, y]. cbn in X. rewrite X, starts_app in E. discriminate. }
      rewrite <- IH. destruct (find_sub N.eqb a b); cbn; reflexivity.
Qed.
Lemma split_tail_len r : (length (snd (split_tail r)) <= length r)%nat.
Proof. induction r as [|c r IH]; [cbn; lia|]. cbn [split_tail]. destruct (c =? SLASH); [cbn [snd]; lia|]. destruct (split_tail r) as [t h]. cbn [snd length] in *. lia. Qed.
Lemma split_tail_app r l : (S (length l) <= length (snd (split_tail (r ++ SLASH :: l))))%nat.
Proof. induction r as [|c r IH]; cbn [app split_tail]; [reflexivity|]. destruct (c =? SLASH); [cbn [snd length]; rewrite app_length; cbn [length]; lia|]. destruct (split_tail (r ++ SLASH :: l)) as [t h]. exact IH. Qed.
Lemma sep_below p q : below p q -> last_sep p <> last_sep q.
Proof.
  intros (s & ->). unfold last_sep. change 47 with SLASH. rewrite rev_app_distr. cbn [rev]. rewrite <- app_assoc. cbn [app]. pose proof (split_tail_app (rev s) (rev p)) as A. pose proof (split_tail_len (rev p)) as B. rewrite !lenN_length. cbn [length] in A. lia.
Qed.
Lemma last_sep_sib p m : ~ In 47 m -> last_sep (p ++ 47 :: m) = lenN p + 1.
Proof. intros H. unfold last_sep. rewrite rev_app_distr. cbn [rev]. rewrite <- app_assoc. cbn [app]. rewrite split_tail_sep by now rewrite <- in_rev. cbn [snd]. rewrite !lenN_length. cbn [length]. rewrite rev_length. lia. Qed.
Definition blocks (last p : text) : bool := part_of last p && negb (lenN last =? 0) && negb (last_sep p =? last_sep last).
Lemma blocks_below last p : last <> [] -> below last p -> blocks last p = true.
Proof.
  intros N B. unfold blocks. pose proof (sep_below _ _ B) as S. assert (part_of last p = true) as -> by (apply part_of_spec; destruct B as (s & ->); exists [], (47 :: s); reflexivity). destruct last; [congruence|]. rewrite lenN_length. cbn [length andb]. lia.
Qed.
Lemma found_app l1 : forall last l2, found last (l1 ++ l2) = (fst (found last l1) ++ fst (found (snd (found last l1)) l2), snd (found (snd (found last l1)) l2)).
Proof.
  induction l1 as [|[p t] l1 IH]; intros last l2; cbn [app found fst snd]; [now destruct (found last l2)|]. destruct (_ && _); [apply IH|]. destruct (is_release (basename p) t); [|apply IH]. rewrite IH. destruct (found p l1) as [r1 k1]. cbn [fst snd]. reflexivity.
Qed.
Lemma found_blocked l : forall last, last <> [] -> (forall p t, In (p, t) l -> below last p) -> found last l = ([], last).
Proof.
  induction l as [|[p t] l IH]; intros last N H; cbn [found]; [reflexivity|]. fold (blocks last p). rewrite blocks_below; [|exact N|apply (H p t); now left]. apply IH; [exact N|]. intros q u I. apply (H q u). now right.
Qed.

(** ** What is found *)
Definition rel (p : text) (t : tree) : Prop := is_release (basename p) t = true.
Definition apart (last p : text) : Prop := last = [] \/ inc last p.
Definition good_find (p : text) (t : tree) (last : text) (r : list text) (last' : text) : Prop :=
  ((r = [] /\ last' = last) \/ In last' r) /\
  (forall q, In q r -> exists u, at_path p t q u /\ rel q u) /\
  (forall q q', In q r -> In q' r -> ~ below q q') /\
  (forall q, topmost rel p t q -> In q r \/ exists l, (l = last \/ In l r) /\ l <> [] /\ ~ ab l q /\ inside l q /\ last_sep q <> last_sep l).
Lemma blocks_cases last p : blocks last p = true -> last <> [] /\ inside last p /\ last_sep p <> last_sep last.
Proof.
  unfold blocks. intros H. apply andb_true_iff in H. destruct H as [H S]. apply andb_true_iff in H. destruct H as [P L]. apply part_of_spec in P. split; [|split; [exact P|lia]]. intros ->. discriminate L.
Qed.
Lemma found_walk t : tree_ok t -> forall p, path_ok p -> forall last, apart last p -> good_find p t last (fst (found last (walk p t))) (snd (found last (walk p t))).
Proof.
  induction t as [files dirs IH] using tree_induction. intros Hok p Hp last Hl. pose proof (walk_in _ Hok p Hp) as W. inversion Hok as [f d ND Hd]; subst. assert (forall n s, In (n, s) dirs -> n <> [] /\ ~ In 47 n) as Hn by (intros n s I; destruct (Hd n s I); tauto).
  rewrite walk_eq in * by assumption. set (l := by_name dirs) in *. set (subs := concat (map (fun d => walk (p ++ 47 :: fst d) (snd d)) l)) in *.
  assert (forall q u, In (q, u) subs -> below p q) as Hb.
  { intros q u I. unfold subs in I. apply in_concat in I. destruct I as (x & J & K). apply in_map_iff in J. destruct J as ([n s] & <- & J). cbn [fst snd] in K. apply (Permutation_in _ (Permutation_sym (by_name_perm dirs))) in J. destruct (Hd n s J) as (A & B & _ & C).
    apply (walk_in s C) in K; [|now apply pjoin_ok]. apply at_ab in K. apply (below_ab p (p ++ 47 :: n)); [now exists n|exact K]. }
  (* the directories in it *)
  assert (forall l', incl l' dirs -> NoDup (map fst l') -> forall last, (forall d, In d l' -> apart last (p ++ 47 :: fst d)) ->
    let x := found last (concat (map (fun d => walk (p ++ 47 :: fst d) (snd d)) l')) in
    ((fst x = [] /\ snd x = last) \/ In (snd x) (fst x)) /\
    (forall q, In q (fst x) -> exists d u, In d l' /\ at_path (p ++ 47 :: fst d) (snd d) q u /\ rel q u) /\
    (forall q q', In q (fst x) -> In q' (fst x) -> ~ below q q') /\
    (forall d q, In d l' -> topmost rel (p ++ 47 :: fst d) (snd d) q -> In q (fst x) \/ exists l, (l = last \/ In l (fst x)) /\ l <> [] /\ ~ ab l q /\ inside l q /\ last_sep q <> last_sep l)) as GL.
  { clear Hl subs Hb W last l. induction l' as [|[n s] l' IHl]; intros Hi Hnd last Ha; cbn [map concat fst snd].
    { cbn. split; [auto|]. split; [contradiction|]. split; [contradiction|]. contradiction. }
    assert (In (n, s) dirs) as I by (apply Hi; now left). destruct (Hd n s I) as (Nn & Hsl & _ & Oks). inversion Hnd as [|? ? Nin Hnd']; subst.
    pose proof (IH n s I Oks (p ++ 47 :: n) (proj2 (pjoin_ok p n Hp Nn Hsl)) last (Ha (n, s) (or_introl eq_refl))) as (G1 & G2 & G3 & G4). rewrite found_app. set (x1 := found last (walk (p ++ 47 :: n) s)) in *.
    assert (forall q, In q (fst x1) -> ab (p ++ 47 :: n) q) as Hq by (intros q X; destruct (G2 q X) as (u & Y & _); now apply at_ab in Y).
    assert (forall d, In d l' -> fst d <> n /\ ~ In 47 (fst d)) as Hdif.
    { intros d J. split; [intros <-; apply Nin; now apply in_map|]. destruct d as [m u]. now apply (Hn m u), Hi; right. }
    assert (forall d, In d l' -> apart (snd x1) (p ++ 47 :: fst d)) as Ha1.
    { intros d J. destruct G1 as [[_ ->]|G1]; [apply Ha; now right|]. right. destruct (Hdif d J) as [A B]. apply (inc_sibling p n); auto. }
    destruct (IHl (fun y Hy => Hi y (or_intror Hy)) Hnd' (snd x1) Ha1) as (L1 & L2 & L3 & L4). set (x2 := found (snd x1) _) in *. cbn [fst snd].
    assert (forall q, In q (fst x2) -> exists d, In d l' /\ ab (p ++ 47 :: fst d) q) as Hq2 by (intros q X; destruct (L2 q X) as (d & u & Y & Z & _); apply at_ab in Z; eauto).
    split; [|split; [|split]].
    - destruct L1 as [[E1 E2]|L1]; [|right; apply in_or_app; now right]. rewrite E2. destruct G1 as [[E3 E4]|G1]; [left; now rewrite E1, E3|]. right. apply in_or_app. now left.
    - intros q X. apply in_app_iff in X. destruct X as [X|X].
      + destruct (G2 q X) as (u & A & B). exists (n, s), u. split; [now left|]. now split.
      + destruct (L2 q X) as (d & u & A & B). exists d, u. split; [now right|]. exact B.
    - intros q q' X Y B. apply in_app_iff in X, Y. destruct X as [X|X], Y as [Y|Y].
      + now apply (G3 q q').
      + apply Hq in X. apply Hq2 in Y. destruct Y as (d & J & Y). destruct (Hdif d J) as [A C]. apply A. symmetry. apply (ab_child p n (fst d) q'); auto. apply (ab_trans _ q); [exact X|now right].
      + apply Hq in Y. apply Hq2 in X. destruct X as (d & J & X). destruct (Hdif d J) as [A C]. apply A. symmetry. apply (ab_child p n (fst d) q'); auto. apply (ab_trans _ q); [exact X|now right].
      + now apply (L3 q q').
    - intros d q [<- |J] T; cbn [fst snd] in T.
      + destruct (G4 q T) as [X|(k & A & B)]; [left; apply in_or_app; now left|]. right. exists k. split; [|exact B]. destruct A as [A|A]; [now left|right; apply in_or_app; now left].
      + destruct (L4 d q J T) as [X|(k & A & B)]; [left; apply in_or_app; now right|]. right. exists k. split; [|exact B]. destruct A as [A|A]; [|right; apply in_or_app; now right]. subst k. destruct G1 as [[_ ->]|G1]; [now left|]. right. apply in_or_app. now left. }
  assert (incl l dirs) as Il by (intros x X; apply (Permutation_in _ (Permutation_sym (by_name_perm dirs))); exact X).
  assert (NoDup (map fst l)) as NDl by (apply (Permutation_NoDup (l := map fst dirs)); [apply Permutation_map, by_name_perm|exact ND]).
  assert (forall d, In d l -> apart last (p ++ 47 :: fst d)) as Hal. { intros [n s] J. destruct Hl as [-> |Hl]; [now left|]. right. apply inc_child; [|exact Hl]. now apply (Hn n s), Il. }
  specialize (GL l Il NDl last Hal). fold subs in GL. cbn zeta in GL. destruct GL as (L1 & L2 & L3 & L4).
  (* not found here: what is found below *)
  assert ((forall q, topmost rel p (Dir files dirs) q -> q <> p \/ blocks last p = true) -> good_find p (Dir files dirs) last (fst (found last subs)) (snd (found last subs))) as K.
  { intros Hh. split; [exact L1|]. split; [|split; [exact L3|]].
    - intros q X. destruct (L2 q X) as ([n s] & u & A & B & C). exists u. split; [|exact C]. apply (at_sub p files dirs n s); [now apply Il|exact B].
    - intros q T. pose proof T as (u & A & B & C). inversion A; subst.
      + destruct (Hh q T) as [X|X]; [congruence|]. right. exists last. split; [now left|]. destruct (blocks_cases _ _ X) as (E & F & G). split; [exact E|]. split; [|now split]. destruct Hl as [-> |[Hl _]]; [congruence|exact Hl].
      + match goal with I : In (n, s) dirs |- _ => rename I into J end. apply (L4 (n, s)); [now apply (Permutation_in _ (by_name_perm dirs))|]. exists u. cbn [fst snd]. split; [assumption|]. split; [exact B|]. intros q' v D E. apply (C q' v); [|exact E]. now apply (at_sub p files dirs n s). }
  cbn [found]. fold (blocks last p). destruct (blocks last p) eqn:Eb; [apply K; auto|]. destruct (is_release (basename p) (Dir files dirs)) eqn:Er.
  - rewrite found_blocked; [|apply Hp|exact Hb]. cbn [fst snd]. split; [right; now left|]. split; [|split].
    + intros q [<- |[]]. exists (Dir files dirs). split; [constructor|exact Er].
    + intros q q' [<- |[]] [<- |[]]. apply not_below_self.
    + intros q (u & A & B & C). left. left. pose proof (at_ab _ _ _ _ A) as [-> |X]; [reflexivity|]. exfalso. now apply (C p (Dir files dirs)); [constructor| |].
  - apply K. intros q (u & A & B & C). left. intros ->. inversion A; subst; [unfold rel in B; congruence|]. match goal with X : at_path _ _ p u |- _ => apply at_ab in X; rename X into Y end. apply (not_below_self p). apply (below_ab p (p ++ 47 :: n)); [now exists n|exact Y].
Qed.
Lemma dir_path_ok p : dir_path p -> path_ok p.
Proof.
  intros [A B]. split; [exact A|]. unfold last_is. destruct (rev p) as [|c r] eqn:E; [reflexivity|]. apply N.eqb_neq. intros ->. apply (B (rev r)). rewrite <- (rev_involutive p), E. reflexivity.
Qed.
Lemma release_directories root t q : tree_ok t -> dir_path root -> clear rel root t -> In q (get_release_directories root t) <-> topmost rel root t q.
Proof.
  intros Hok Hr' Hc. pose proof (dir_path_ok _ Hr') as Hr. destruct (found_walk t Hok root Hr [] (or_introl eq_refl)) as (A & B & C & D). fold (get_release_directories root t) in *. split.
  - intros I. destruct (B q I) as (u & E & F). exists u. split; [exact E|]. split; [exact F|]. intros q' v G H R.
    assert (exists q0 v0, at_path root t q0 v0 /\ ab q0 q' /\ topmost rel root t q0) as (q0 & v0 & X & Y & T).
    { clear - Hok Hr G R. revert v G R. remember (length q') as n eqn:En. revert q' En. induction n as [n IHn] using (well_founded_induction Wf_nat.lt_wf). intros q' En v G R.
      destruct (existsb (fun x => starts_with N.eqb (fst x ++ [47]) q' && is_release (basename (fst x)) (snd x)) (walk root t)) eqn:Ex.
      - apply existsb_exists in Ex. destruct Ex as ([q1 v1] & a & bc). cbn [fst snd] in bc. apply andb_true_iff in bc. destruct bc as [b c]. apply (walk_in t Hok root Hr) in a. apply starts_inv in b. destruct b as (s & b). rewrite <- app_assoc in b. cbn in b.
        destruct (IHn (length q1)) with (q' := q1) (v := v1) as (q0 & v0 & x & y & z); auto. { rewrite En, b, app_length. cbn. lia. } exists q0, v0. split; [exact x|]. split; [|exact z]. apply (ab_trans _ q1); [exact y|right; now exists s].
      - exists q', v. split; [exact G|]. split; [now left|]. exists v. split; [exact G|]. split; [exact R|]. intros q1 v1 a (s & b) c. apply (walk_in t Hok root Hr) in a. apply not_true_iff_false in Ex. apply Ex. apply existsb_exists. exists (q1, v1). split; [exact a|]. cbn [fst snd]. unfold rel in c. rewrite c, andb_true_r. rewrite b. change (q1 ++ 47 :: s) with (q1 ++ [47] ++ s). rewrite app_assoc. apply starts_app. }
    destruct (D q0 T) as [Z|(l & Z & Nl & N1 & N2 & N3)].
    + apply (C q0 q Z I). destruct Y as [-> |Y]; [exact H|]. apply (below_ab q0 q'); [exact Y|now right].
    + destruct Z as [-> |Z]; [congruence|]. destruct (B l Z) as (w & P & Q). destruct (Hc l w q0 v0 P Q X N2) as [-> |[S|(p & m & n & -> & -> & Hm & Hn)]]; [apply N1; now left|apply N1; now right|]. apply N3. now rewrite !last_sep_sib.
  - intros T. pose proof T as (u & E & _). destruct (D q T) as [X|(l & Z & Nl & N1 & N2 & N3)]; [exact X|]. exfalso. destruct Z as [-> |Z]; [congruence|]. destruct (B l Z) as (w & P & Q). destruct (Hc l w q u P Q E N2) as [-> |[S|(p & m & n & -> & -> & Hm & Hn)]]; [apply N1; now left|apply N1; now right|]. apply N3. now rewrite !last_sep_sib.
Qed.
