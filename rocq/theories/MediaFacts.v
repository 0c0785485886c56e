(** MediaFacts: proofs about Media.v. *)
From Verif Require Import Base BaseFacts Path PathFacts Dirs DirsSpec DirsFacts Select SelectSpec SelectFacts SelectEx Media MediaSpec.

(** ** Lists of files *)
Definition is_video (n : text) : bool := existsb (fun e => ends_in e (lower n)) VIDEO.
Definition VIDEO_S : list string := [".mp4"; ".m4v"; ".avi"; ".mkv"; ".wmv"; ".vob"; ".m2ts"; ".ts"; ".mpeg"; ".mpg"; ".m2v"; ".m2p"]%string.
Lemma video_spec n : is_video n = true <-> video n.
Proof.
  unfold is_video, video, named. rewrite existsb_exists. change VIDEO with (map str VIDEO_S). split.
  - intros (e & I & H). apply in_map_iff in I as (s & <- & I). apply ends_in_spec in H. now exists s.
  - intros (s & I & H). exists (str s). split; [now apply in_map|]. now apply ends_in_spec.
Qed.
(** no extension ends with another *)
Lemma starts_both p q l : starts_with N.eqb p l = true -> starts_with N.eqb q l = true -> starts_with N.eqb p q = true \/ starts_with N.eqb q p = true.
Proof.
  revert q l. induction p as [|x p IH]; intros q l H J; [now left|]. destruct q as [|y q]; [now right|]. destruct l as [|z l]; [discriminate|].
  cbn in H, J. apply andb_true_iff in H as [H1 H]. apply andb_true_iff in J as [J1 J]. apply N.eqb_eq in H1, J1. subst x y.
  cbn. rewrite N.eqb_refl. cbn [andb]. exact (IH q l H J).
Qed.
Lemma apart : forallb (fun a => forallb (fun b => negb (starts_with N.eqb (rev a) (rev b)) || teqb a b) VIDEO) VIDEO = true.
Proof. vm_compute. reflexivity. Qed.
Lemma same_ext a b n : In a VIDEO -> In b VIDEO -> ends_in a n = true -> ends_in b n = true -> a = b.
Proof.
  intros A B H J. unfold ends_in in H, J. pose proof apart as P. rewrite forallb_forall in P.
  assert (Q : forall a b, In a VIDEO -> In b VIDEO -> starts_with N.eqb (rev a) (rev b) = true -> a = b).
  { intros a' b' A' B' S. specialize (P a' A'). rewrite forallb_forall in P. specialize (P b' B'). rewrite S in P. now apply teqb_eq in P. }
  destruct (starts_both _ _ _ H J) as [S|S]; [now apply Q|symmetry; now apply Q].
Qed.
Lemma filter_one {A} (p : A -> bool) l : NoDup l -> (forall a b, In a l -> In b l -> p a = true -> p b = true -> a = b) ->
  filter p l = [] /\ existsb p l = false \/ exists a, filter p l = [a] /\ existsb p l = true.
Proof.
  induction 1 as [|x l N U IH]; intros H; [now left|]. cbn [filter existsb]. destruct (p x) eqn:E.
  - right. exists x. split; [|reflexivity]. f_equal. destruct (filter p l) as [|y r] eqn:F; [reflexivity|]. exfalso.
    assert (I : In y (filter p l)) by (rewrite F; now left). apply filter_In in I as [I Y]. apply N. now rewrite (H x y (or_introl eq_refl) (or_intror I) E Y).
  - cbn [orb]. apply IH. intros a b Ia Ib. apply H; now right.
Qed.
Lemma VIDEO_once : NoDup VIDEO.
Proof. unfold VIDEO. repeat constructor; cbn; intuition discriminate. Qed.
Lemma list_video t : tree_ok t -> forall root, path_ok root -> files_ok root t ->
  get_files_list VIDEO root t = filter (fun p => is_video (basename p)) (get_files [] root t).
Proof.
  induction t as [files dirs IH] using tree_induction. intros Hok root Hr Hf. inversion Hok as [f d ND Hd]; subst.
  destruct (Hf _ _ _ (at_here root (Dir files dirs))) as [_ Hn]. cbn [get_files_list get_files]. rewrite filter_app. f_equal.
  - clear - Hn Hr. induction files as [|n files IH]; [reflexivity|]. cbn [map concat filter].
    assert (Ee : ends_in (lower []) (lower n) = true) by (apply ends_in_spec; exists (lower n); symmetry; apply app_nil_r). rewrite Ee. cbn [map filter].
    destruct (Hn n (or_introl eq_refl)) as [A B]. assert (Eb : basename (pjoin root n) = n) by (rewrite (proj1 (pjoin_ok root n Hr A B)); now apply basename_sep).
    rewrite Eb. rewrite IH by (intros m I; apply Hn; now right).
    destruct (filter_one (fun e => ends_in e (lower n)) VIDEO VIDEO_once) as [[-> E]|(a & -> & E)].
    + intros a b Ia Ib. now apply same_ext.
    + unfold is_video at 2. now rewrite E.
    + unfold is_video at 2. now rewrite E.
  - clear Hn. assert (Sub : forall k u, In (k, u) dirs -> get_files_list VIDEO (pjoin root k) u = filter (fun p => is_video (basename p)) (get_files [] (pjoin root k) u)).
    { intros k u J. destruct (Hd k u J) as (A & B & _ & D). destruct (pjoin_ok root k Hr A B) as [P Q]. rewrite P. apply (IH k u J D _ Q).
      intros d fs ds X. apply (Hf d fs ds). now apply (at_sub root files dirs k u). }
    clear - Sub. induction dirs as [|[k u] dirs IH]; [reflexivity|]. cbn [map concat fst snd]. rewrite filter_app, <- (Sub k u (or_introl eq_refl)). f_equal.
    apply IH. intros k' u' J. apply Sub. now right.
Qed.

Section Release.
Variables (listed : text -> list text) (root : text) (t : tree).
Hypothesis Ht : tree_ok t.
Hypothesis Hr : path_ok root.
Hypothesis Hf : files_ok root t.

Lemma all_files p : In p (get_files [] root t) <-> exists d n, file_at root t d n p.
Proof.
  rewrite (get_files_in [] t Ht root Hr Hf). split; intros (d & n & H).
  - exists d, n. now destruct H.
  - exists d, n. split; [exact H|]. apply ends_in_spec. exists (lower n). symmetry. apply app_nil_r.
Qed.
Lemma videos p : In p (get_files_list VIDEO root t) <-> exists d n, file_at root t d n p /\ video n.
Proof.
  rewrite (list_video t Ht root Hr Hf), filter_In, all_files. split.
  - intros [(d & n & H) V]. exists d, n. split; [exact H|]. destruct (file_base root t d n p Hf H) as (_ & B & _). rewrite B in V. now apply video_spec.
  - intros (d & n & H & V). split; [eauto|]. destruct (file_base root t d n p Hf H) as (_ & B & _). rewrite B. now apply video_spec.
Qed.
Lemma videos_once : NoDup (get_files_list VIDEO root t).
Proof. rewrite (list_video t Ht root Hr Hf). apply NoDup_filter. now apply get_files_once. Qed.
Lemma four_off (p b x : text) : p = b ++ x -> lenN x = 4 -> takeN (lenN p - 4) p = b.
Proof. intros -> L. rewrite lenN_app, L. replace (lenN b + 4 - 4) with (lenN b) by lia. now apply takeN_app_exact. Qed.
Lemma by_name_spec d n p : file_at root t d n p -> video n -> (by_name root t p = true <-> within "sample" p \/ beside root t p).
Proof.
  intros F V. unfold by_name. rewrite orb_true_iff, part_of_spec. apply or_iff_compat_l. unfold there_is, mem_text.
  assert (L : exists b x, p = b ++ x /\ lenN x = 4).
  { destruct (file_base root t d n p Hf F) as (Ep & _ & Nn & _). destruct V as (e & I & w & E).
    assert (Ln : lenN n = lenN w + lenN (str e)) by (rewrite <- lenN_app, <- E; unfold lower; rewrite !lenN_length, map_length; reflexivity).
    assert (Le : 3 <= lenN (str e)) by (cbn in I; repeat (destruct I as [<-|I]; [vm_compute; discriminate|]); destruct I).
    assert (Dn : d <> []) by (destruct F as (fs & ds & X & _); apply at_longer in X; destruct Hr as [R _]; destruct X as [->|(r & ->)]; [exact R|destruct root; discriminate]).
    assert (Lp : 4 <= lenN p) by (rewrite Ep, lenN_app; cbn [lenN]; lia).
    exists (takeN (lenN p - 4) p), (dropN (lenN p - 4) p). split; [symmetry; apply takeN_dropN|]. rewrite lenN_dropN. lia. }
  destruct L as (b & x & Ep & Lx). rewrite (four_off p b x Ep Lx). rewrite existsb_exists. split.
  - intros (q & I & E). apply teqb_eq in E. subst q. apply all_files in I as (d' & n' & I). exists b, x, d', n'. auto.
  - intros (b' & x' & d' & n' & E & L' & I). assert (b' = b) by (rewrite <- (four_off p b x Ep Lx); symmetry; now apply (four_off p b' x')). subst b'.
    exists (b ++ str ".sfv"). split; [apply all_files; eauto|apply teqb_refl].
Qed.
Lemma sfv_names n : mem_text n (concat (map listed (get_files (str ".sfv") root t))) = true <-> in_sfv listed root t n.
Proof.
  unfold mem_text. rewrite existsb_exists. split.
  - intros (q & I & E). apply teqb_eq in E. subst q. apply in_concat in I as (l & J & I). apply in_map_iff in J as (s & <- & J).
    apply (get_files_in _ t Ht root Hr Hf) in J as (d & m & F & E). exists d, m, s. split; [exact F|]. split; [|exact I]. now apply (ends_named ".sfv").
  - intros (d & m & s & F & N & I). exists n. split; [|apply teqb_refl]. apply in_concat. exists (listed s). split; [|exact I]. apply in_map.
    apply (get_files_in _ t Ht root Hr Hf). exists d, m. split; [exact F|]. now apply (ends_named ".sfv").
Qed.
Theorem samples_ok p : In p (get_sample_files listed root t) <->
  exists d n, file_at root t d n p /\ video n /\ (within "sample" p \/ beside root t p \/ in_sfv listed root t n).
Proof.
  unfold get_sample_files. rewrite in_app_iff, !filter_In, !videos, negb_true_iff. split.
  - intros [[(d & n & F & V) B]|[[(d & n & F & V) B] S]]; exists d, n; (split; [exact F|]; split; [exact V|]).
    + apply (by_name_spec d n p F V) in B. tauto.
    + apply sfv_names in S. destruct (file_base root t d n p Hf F) as (_ & E & _). rewrite E in S. tauto.
  - intros (d & n & F & V & H). pose proof (by_name_spec d n p F V) as B. destruct (by_name root t p).
    + left. split; [eauto|reflexivity].
    + right. split; [split; [eauto|reflexivity]|]. apply sfv_names. destruct (file_base root t d n p Hf F) as (_ & -> & _).
      destruct H as [H|[H|H]]; [| |exact H]; exfalso; assert (X : false = true) by (apply B; tauto); discriminate.
Qed.
Theorem samples_once : NoDup (get_sample_files listed root t).
Proof.
  unfold get_sample_files. apply NoDup_both.
  - apply NoDup_filter, videos_once.
  - do 2 apply NoDup_filter. apply videos_once.
  - intros x A B. rewrite !filter_In in *. destruct A as [_ A]. destruct B as [[_ B] _]. rewrite A in B. discriminate.
Qed.
Theorem music_ok p : In p (get_music_files root t) <-> exists d n, file_at root t d n p /\ music n.
Proof. clear listed.
  unfold get_music_files. rewrite !in_app_iff, !(get_files_in _ t Ht root Hr Hf). unfold music. split.
  - intros [(d & n & F & E)|[(d & n & F & E)|(d & n & F & E)]]; exists d, n; (split; [exact F|]).
    + exists ".mp3"%string. split; [cbn; tauto|]. now apply ends_named.
    + exists ".mp2"%string. split; [cbn; tauto|]. now apply ends_named.
    + exists ".flac"%string. split; [cbn; tauto|]. now apply ends_named.
  - intros (d & n & F & e & I & E). cbn in I. destruct I as [<-|[<-|[<-|[]]]]; [left|right; left|right; right]; exists d, n; (split; [exact F|]); now apply ends_named.
Qed.
Lemma ends_both a b n : ends_in a n = true -> ends_in b n = true -> (exists x, a = x ++ b) \/ exists x, b = x ++ a.
Proof.
  intros H J. unfold ends_in in H, J. destruct (starts_both _ _ _ H J) as [S|S].
  - right. change (ends_in a b = true) in S. now apply ends_in_spec.
  - left. change (ends_in b a = true) in S. now apply ends_in_spec.
Qed.
Theorem music_once : NoDup (get_music_files root t).
Proof.
  assert (Ap : forall a b p, ends_in (lower a) (lower b) = false -> ends_in (lower b) (lower a) = false -> In p (get_files a root t) -> In p (get_files b root t) -> False).
  { intros a b p A B I J. apply (get_files_in _ t Ht root Hr Hf) in I as (d & n & F & E). apply (get_files_in _ t Ht root Hr Hf) in J as (d' & n' & F' & E').
    destruct (file_base root t d n p Hf F) as (_ & X & _). destruct (file_base root t d' n' p Hf F') as (_ & Y & _). assert (H : n' = n) by congruence. rewrite H in E'.
    destruct (starts_both _ _ _ E E') as [S|S]; [unfold ends_in in A|unfold ends_in in B]; congruence. }
  unfold get_music_files. apply NoDup_both; [now apply get_files_once|apply NoDup_both; [now apply get_files_once|now apply get_files_once|]|].
  - intros x I J; revert I J; apply Ap; vm_compute; reflexivity.
  - intros x I J. apply in_app_iff in J as [J|J]; revert I J; apply Ap; vm_compute; reflexivity.
Qed.
End Release.
(** ** The place of the release *)
Lemma across (s a b : text) : ~ In 47 s -> (exists x y, a ++ 47 :: b = x ++ s ++ y) -> (exists x y, a = x ++ s ++ y) \/ exists x y, b = x ++ s ++ y.
Proof.
  intros N (x & y & E). destruct s as [|c s]; [right; now exists [], b|]. apply app_eq_app in E as (l & [[E1 E2]|[E1 E2]]).
  - apply app_eq_app in E2 as (k & [[K1 K2]|[K1 K2]]).
    + destruct k as [|z k].
      * left. exists x, []. rewrite E1. rewrite app_nil_r in *. now rewrite K1.
      * exfalso. injection K2 as <- _. apply N. rewrite K1. apply in_app_iff. right. now left.
    + left. exists x, k. now rewrite E1, K1.
  - destruct l as [|z l].
    + exfalso. cbn [app] in E2. injection E2 as <- _. apply N. now left.
    + right. injection E2 as _ E2. exists l, y. exact E2.
Qed.
Theorem place_ok root p r : p = root ++ 47 :: r -> ~ within "sample" root -> (within "sample" p <-> within "sample" r).
Proof.
  intros -> N. unfold within, inside in *. rewrite lower_app. change (lower (47 :: r)) with (47 :: lower r). split.
  - intros H. apply across in H as [H|H]; [contradiction|exact H|]. vm_compute. intuition discriminate.
  - intros (x & y & E). exists (lower root ++ 47 :: x), y. rewrite <- app_assoc. cbn [app]. now rewrite E.
Qed.

(** ** Names of .srs files *)
Lemma after_dot_spec r : match after_dot r with
  | Some q => exists e, r = e ++ 46 :: q /\ ~ In 46 e
  | None => ~ In 46 r
  end.
Proof.
  induction r as [|c r IH]; cbn [after_dot]; [intros []|]. destruct (c =? 46) eqn:E.
  - apply N.eqb_eq in E. subst c. exists []. split; [reflexivity|intros []].
  - apply N.eqb_neq in E. destruct (after_dot r) as [q|].
    + destruct IH as (e & -> & N). exists (c :: e). split; [reflexivity|]. intros [X|X]; [congruence|contradiction].
    + intros [X|X]; [congruence|contradiction].
Qed.
Lemma base_stem p : stem p (base p).
Proof.
  unfold base. pose proof (after_dot_spec (rev p)) as H. destruct (after_dot (rev p)) as [q|].
  - destruct H as (e & E & N). left. exists (rev e). split.
    + rewrite <- (rev_involutive p), E, rev_app_distr. cbn [rev]. now rewrite <- app_assoc.
    + now rewrite <- in_rev.
  - right. split; [reflexivity|]. now rewrite in_rev.
Qed.
Lemma last_dot (a b x y : text) : ~ In 46 x -> ~ In 46 y -> a ++ 46 :: x = b ++ 46 :: y -> a = b.
Proof.
  revert b. induction a as [|c a IH]; intros [|d b] A B E; [reflexivity| | |].
  - injection E as <- E. exfalso. apply A. rewrite E. apply in_app_iff. right. now left.
  - injection E as -> E. exfalso. apply B. rewrite <- E. apply in_app_iff. right. now left.
  - injection E as <- E. f_equal. now apply (IH b).
Qed.
Lemma stem_one p a b : stem p a -> stem p b -> a = b.
Proof.
  intros [(e & -> & N)|[-> N]] [(f & E & M)|[E M]].
  - now apply (last_dot a b e f).
  - exfalso. apply M. apply in_app_iff. right. now left.
  - exfalso. apply N. rewrite E. apply in_app_iff. right. now left.
  - exact E.
Qed.
Lemma runs_head k l : exists c r, runs (k :: l) = (k, c) :: r /\ 1 <= c /\ (forall x d, In (x, d) (runs l) -> exists d', d <= d' /\ In (x, d') ((k, c) :: r)) /\
  (forall l', l = k :: l' -> 1 < c).
Proof.
  revert k. induction l as [|m l IH]; intros k.
  - exists 1, []. split; [reflexivity|]. split; [lia|]. split; [intros x d []|discriminate].
  - destruct (IH m) as (c & r & E & C & _). change (runs (k :: m :: l)) with (match runs (m :: l) with (k', c) :: r => if teqb k k' then (k', c + 1) :: r else (k, 1) :: (k', c) :: r | [] => [(k, 1)] end).
    rewrite E. destruct (teqb k m) eqn:T.
    + apply teqb_eq in T. subst m. exists (c + 1), r. split; [reflexivity|]. split; [lia|]. split.
      * intros x d [I|I]; [injection I as <- <-; exists (c + 1); split; [lia|now left]|]. exists d. split; [lia|now right].
      * intros l' _. lia.
    + exists 1, ((m, c) :: r). split; [reflexivity|]. split; [lia|]. split.
      * intros x d I. exists d. split; [lia|now right].
      * intros l' X. injection X as -> _. rewrite teqb_refl in T. discriminate.
Qed.
Lemma runs_next a k b : exists c, 1 < c /\ In (k, c) (runs (a ++ k :: k :: b)).
Proof.
  induction a as [|x a IH]; cbn [app].
  - destruct (runs_head k (k :: b)) as (c & r & -> & _ & _ & H). exists c. split; [now apply (H b)|now left].
  - destruct IH as (c & C & I). destruct (runs_head x (a ++ k :: k :: b)) as (c' & r & -> & _ & H & _). destruct (H k c I) as (d & D & J). exists d. split; [lia|exact J].
Qed.
Lemma two_split {A} (p q : A) l : In p l -> In q l -> p <> q -> (exists a b c, l = a ++ p :: b ++ q :: c) \/ exists a b c, l = a ++ q :: b ++ p :: c.
Proof.
  intros I J N. apply in_split in I as (a & c & ->). apply in_app_iff in J as [J|[J|J]]; [|contradiction|].
  - apply in_split in J as (x & y & ->). right. exists x, y, c. now rewrite <- app_assoc.
  - apply in_split in J as (x & y & ->). left. now exists a, x, y.
Qed.
Lemma same_in media p q : together media -> In p media -> In q media -> p <> q -> base p = base q -> In (base p) (same_srs_name media).
Proof.
  assert (G : together media -> forall a p b q c, media = a ++ p :: b ++ q :: c -> base p = base q -> In (base p) (same_srs_name media)).
  { clear p q. intros T a p b q c E B.
    assert (X : exists a' b', map base media = a' ++ base p :: base p :: b').
    { destruct b as [|r b].
      - exists (map base a), (map base c). rewrite E. cbn [app]. rewrite map_app. cbn [map]. now rewrite B.
      - assert (R : base r = base p) by (apply (stem_one r); [apply base_stem|]; apply (T a p (r :: b) q c r (base p) E); [apply base_stem|rewrite B; apply base_stem|now left]).
        exists (map base a), (map base (b ++ q :: c)). rewrite E. cbn [app]. rewrite map_app. cbn [map]. now rewrite R. }
    destruct X as (a' & b' & X). unfold same_srs_name. rewrite X. destruct (runs_next a' (base p) b') as (n & Hn & I). apply in_map_iff. exists (base p, n). split; [reflexivity|].
    apply filter_In. split; [exact I|]. cbn [snd]. lia. }
  intros T I J N B. destruct (two_split p q media I J N) as [(a & b & c & E)|(a & b & c & E)]; [now apply (G T a p b q c)|]. rewrite B. now apply (G T a q b p c).
Qed.
Lemma NoDup_map_on {A B} (f : A -> B) l : NoDup l -> (forall p q, In p l -> In q l -> f p = f q -> p = q) -> NoDup (map f l).
Proof.
  induction 1 as [|x l N U IH]; intros H; cbn [map]; constructor.
  - intros I. apply in_map_iff in I as (y & E & I). apply N. rewrite <- (H y x (or_intror I) (or_introl eq_refl) E). exact I.
  - apply IH. intros p q I J. apply H; now right.
Qed.
Theorem srs_once media : NoDup media -> together media -> no_stem media -> NoDup (srs_names media).
Proof.
  intros U T S. unfold srs_names. apply NoDup_map_on; [exact U|]. intros p q I J E. unfold srs_result in E. apply app_inv_tail in E.
  destruct (list_eq_dec N.eq_dec p q) as [X|X]; [exact X|]. exfalso.
  destruct (mem_text (base p) (same_srs_name media)) eqn:P; destruct (mem_text (base q) (same_srs_name media)) eqn:Q.
  - contradiction.
  - destruct (S p q I J) as [Y|Y]; [|contradiction]. apply Y. rewrite E. apply base_stem.
  - destruct (S q p J I) as [Y|Y]; [|now symmetry in Y]. apply Y. rewrite <- E. apply base_stem.
  - pose proof (same_in media p q T I J X E) as K. unfold mem_text in P. apply not_true_iff_false in P. apply P. apply existsb_exists. exists (base p). split; [exact K|apply teqb_refl].
Qed.
(** the name is the path, with or without its extension *)
Theorem srs_name media p : exists b, srs_result (same_srs_name media) p = b ++ str ".srs" /\ (b = p \/ stem p b).
Proof. unfold srs_result. eexists. split; [reflexivity|]. destruct (mem_text _ _); [now left|right; apply base_stem]. Qed.
(** only files with equal stems get their full name *)
Lemma runs_count l k c : In (k, c) (runs l) -> 1 < c -> exists a b, l = a ++ k :: k :: b.
Proof.
  revert k c. induction l as [|x l IH]; intros k c I C; [destruct I|]. cbn [runs] in I. destruct l as [|y l].
  - destruct I as [I|[]]. injection I as <- <-. lia.
  - destruct (runs_head y l) as (c' & r & E & C' & _). rewrite E in I, IH.
    assert (Go : forall d, In (k, d) ((y, c') :: r) -> 1 < d -> exists a b, x :: y :: l = a ++ k :: k :: b).
    { intros d J D. destruct (IH k d J D) as (a & b & X). exists (x :: a), b. cbn [app]. now rewrite <- X. }
    destruct (teqb x y) eqn:T.
    + apply teqb_eq in T. subst y. destruct I as [I|I].
      * injection I as <- <-. now exists [], l.
      * apply (Go c); [now right|exact C].
    + destruct I as [I|I]; [injection I as <- <-; lia|]. now apply (Go c).
Qed.
Theorem full_name media p : NoDup media -> In p media -> srs_result (same_srs_name media) p = p ++ str ".srs" -> ~ stem p p ->
  exists q s, In q media /\ q <> p /\ stem p s /\ stem q s.
Proof.
  intros U I E N. unfold srs_result in E. apply app_inv_tail in E. destruct (mem_text (base p) (same_srs_name media)) eqn:M.
  2:{ exfalso. apply N. rewrite <- E at 2. apply base_stem. }
  unfold mem_text in M. apply existsb_exists in M as (k & K & T). apply teqb_eq in T. subst k. unfold same_srs_name in K. apply in_map_iff in K as ([k c] & Ek & K). cbn [fst] in Ek. subst k.
  apply filter_In in K as [K C]. cbn [snd] in C. apply N.ltb_lt in C. destruct (runs_count _ _ _ K C) as (a & b & X).
  apply map_eq_app in X as (l1 & l2 & El & _ & X). destruct l2 as [|u [|v l2]]; try discriminate. cbn [map] in X. injection X as Xu Xv _.
  assert (Hu : In u media) by (rewrite El; apply in_app_iff; right; now left). assert (Hv : In v media) by (rewrite El; apply in_app_iff; right; right; now left).
  assert (D : u <> v). { intros ->. rewrite El in U. apply NoDup_remove_2 in U. apply U. apply in_app_iff. right. now left. }
  destruct (list_eq_dec N.eq_dec u p) as [Y|Y].
  - exists v, (base p). split; [exact Hv|]. split; [congruence|]. split; [apply base_stem|]. rewrite <- Xv. apply base_stem.
  - exists u, (base p). split; [exact Hu|]. split; [exact Y|]. split; [apply base_stem|]. rewrite <- Xu. apply base_stem.
Qed.

Theorem inside_ok listed root t : tree_ok t -> path_ok root -> files_ok root t -> ~ within "sample" root -> forall p, In p (get_sample_files listed root t) <->
  exists r d n, p = root ++ 47 :: r /\ file_at root t d n p /\ video n /\ (within "sample" r \/ beside root t p \/ in_sfv listed root t n).
Proof.
  intros Ht Hr Hf N p. rewrite samples_ok by assumption. split.
  - intros (d & n & F & V & H). assert (R : exists r, p = root ++ 47 :: r).
    { destruct (file_base root t d n p Hf F) as (E & _). destruct F as (fs & ds & X & _). apply at_longer in X as [->|(r & ->)]; [now exists n|]. exists (r ++ 47 :: n). rewrite E, <- app_assoc. reflexivity. }
    destruct R as (r & E). exists r, d, n. rewrite <- (place_ok root p r E N). tauto.
  - intros (r & d & n & E & F & V & H). exists d, n. rewrite (place_ok root p r E N). tauto.
Qed.
