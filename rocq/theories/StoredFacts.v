(** StoredFacts: proofs about Stored.v. *)
From Coq Require Import Permutation Sorted.
From Verif Require Import Base BaseFacts Path Sfv SfvSortFacts InfoSpec InfoFacts DirsSpec SelectFacts Stored StoredSpec.

(** ** Lists *)
Lemma mem_spec x l : mem_text x l = true <-> In x l.
Proof. unfold mem_text. rewrite existsb_exists. split; [intros (y & I & E); apply teqb_eq in E; now subst|]. intros I. exists x. split; [exact I|apply teqb_refl]. Qed.
Lemma teqb_neq x y : x <> y -> teqb x y = false.
Proof. intros H. apply not_true_iff_false. intros E. apply H. now apply teqb_eq. Qed.
Lemma remove_at x a b : ~ In x a -> remove x (a ++ x :: b) = Ok (a ++ b).
Proof.
  induction a as [|y a IH]; intros H; cbn [app remove]; [now rewrite teqb_refl|]. rewrite teqb_neq by (intros ->; apply H; now left). rewrite IH by (intros I; apply H; now right). reflexivity.
Qed.
Lemma remove_none x l : ~ In x l -> remove x l = Err ValueError.
Proof. induction l as [|y l IH]; intros H; cbn [remove]; [reflexivity|]. rewrite teqb_neq by (intros ->; apply H; now left). rewrite IH by (intros I; apply H; now right). reflexivity. Qed.
Lemma index_at x a b : ~ In x a -> index x (a ++ x :: b) = Ok (length a).
Proof.
  induction a as [|y a IH]; intros H; cbn [app index length]; [now rewrite teqb_refl|]. rewrite teqb_neq by (intros ->; apply H; now left). rewrite IH by (intros I; apply H; now right). reflexivity.
Qed.
Lemma insert_at x a b : insert (length a) x (a ++ b) = a ++ x :: b.
Proof. unfold insert. now rewrite firstn_app, firstn_all, Nat.sub_diag, skipn_app, skipn_all, Nat.sub_diag, app_nil_r. Qed.
Lemma first_in x (l : list text) : In x l -> exists a b, l = a ++ x :: b /\ ~ In x a.
Proof.
  induction l as [|y l IH]; intros I; [destruct I|]. destruct (list_eq_dec N.eq_dec x y) as [->|D]; [now exists [], l|].
  destruct I as [I|I]; [congruence|]. destruct (IH I) as (a & b & -> & N). exists (y :: a), b. split; [reflexivity|]. intros [X|X]; [congruence|contradiction].
Qed.
Lemma parted_filter (P : text -> Prop) (p : text -> bool) l : (forall x, In x l -> (p x = true <-> P x)) -> parted P l (filter p l) (filter (fun x => negb (p x)) l).
Proof.
  induction l as [|x l IH]; intros H; [constructor|]. cbn [filter]. specialize (IH (fun y I => H y (or_intror I))). pose proof (H x (or_introl eq_refl)) as Hx. destruct (p x); cbn [negb]; constructor; intuition congruence.
Qed.

(** ** SFV files *)
Lemma copied_ok copy sfvs s : In s sfvs -> copied_sfv sfvs (map copy sfvs) s = Ok (copy s).
Proof.
  intros I. apply first_in in I as (a & b & -> & N). unfold copied_sfv. rewrite (index_at s a b N). cbn [bind]. rewrite map_app, nth_error_app2, map_length, Nat.sub_diag by (rewrite map_length; lia). reflexivity.
Qed.
Lemma hits_once s main : NoDup main -> filter (teqb s) main = if mem_text s main then [s] else [].
Proof.
  intros U. destruct (mem_text s main) eqn:M.
  - apply mem_spec in M. apply in_split in M as (a & b & ->). apply NoDup_remove_2 in U. rewrite filter_app. cbn [filter]. rewrite teqb_refl.
    assert (Z : forall l, ~ In s l -> filter (teqb s) l = []).
    { intros l. induction l as [|y l IH]; intros H; [reflexivity|]. cbn [filter]. rewrite teqb_neq by (intros ->; apply H; now left). apply IH. intros I. apply H. now right. }
    rewrite !Z by (intros I; apply U, in_app_iff; tauto). reflexivity.
  - destruct (filter (teqb s) main) as [|y l] eqn:F; [reflexivity|]. assert (I : In y (filter (teqb s) main)) by (rewrite F; now left).
    apply filter_In in I as [I E]. apply teqb_eq in E. subst y. apply mem_spec in I. congruence.
Qed.
Theorem add_ok copy copied sfvs main : NoDup main ->
  exists last rest, parted (fun s => In s main) sfvs last rest /\ add_sfvs copy copied sfvs main = Ok (copied ++ map copy rest ++ map copy last).
Proof.
  intros U. exists (filter (fun s => mem_text s main) sfvs), (filter (fun s => negb (mem_text s main)) sfvs). split; [apply parted_filter; intros x _; apply mem_spec|].
  unfold add_sfvs. assert (G : forall todo acc r, incl todo sfvs -> sfv_loop sfvs main (map copy sfvs) todo acc r =
    Ok (acc ++ map copy (filter (fun s => negb (mem_text s main)) todo) ++ r ++ map copy (filter (fun s => mem_text s main) todo))).
  { induction todo as [|s todo IH]; intros acc r H; cbn [sfv_loop].
    - cbn [filter map app]. now rewrite app_nil_r.
    - rewrite (copied_ok copy sfvs s (H s (or_introl eq_refl))). cbn [bind]. rewrite (hits_once s main U). rewrite IH by (intros x I; apply H; now right). cbn [filter].
      destruct (mem_text s main); cbn [map negb]; [|rewrite app_nil_r]; rewrite <- !app_assoc; reflexivity. }
  rewrite G by apply incl_refl. reflexivity.
Qed.

(** ** Music *)
Lemma last4_end e x : lenN (str e) = 4 -> last4 x = str e <-> named e x.
Proof.
  intros L. unfold last4, named. split.
  - intros E. exists (lower (takeN (lenN x - 4) x)). rewrite <- E, <- lower_app. now rewrite takeN_dropN.
  - intros (b & E). assert (Lx : lenN x = lenN b + 4) by (rewrite <- L, <- lenN_app, <- E; unfold lower; rewrite !lenN_length, map_length; reflexivity).
    unfold lower in *. replace (map lower1 (dropN (lenN x - 4) x)) with (dropN (lenN x - 4) (map lower1 x)) by (rewrite !dropN_skipn, skipn_map; reflexivity).
    rewrite E, Lx. replace (lenN b + 4 - 4) with (lenN b) by lia. now apply dropN_app_exact.
Qed.
Lemma key_nfo x : key_sort_music_files x = str "-" /\ nfo x \/ key_sort_music_files x = x /\ ~ nfo x.
Proof.
  unfold key_sort_music_files, nfo. destruct (teqb (last4 x) (str ".nfo")) eqn:E.
  - left. split; [reflexivity|]. apply teqb_eq in E. now apply last4_end.
  - right. split; [reflexivity|]. intros H. apply (last4_end ".nfo") in H; [|reflexivity]. rewrite H, teqb_refl in E. discriminate.
Qed.
Lemma before_false a b : text_lt a b = false <-> not_after b a.
Proof. unfold not_after. rewrite <- before_lt. destruct (text_lt a b); intuition congruence. Qed.
Lemma not_after_trans a b c : not_after a b -> not_after b c -> not_after a c.
Proof.
  intros H G. unfold not_after in *. rewrite <- before_lt in *. intros X. destruct (list_eq_dec N.eq_dec a b) as [->|D]; [contradiction|].
  destruct (text_lt_total a b D) as [Y|Y]; [|contradiction]. apply G. now apply (text_lt_trans c a b).
Qed.
Lemma insert_plain x l : (forall y, In y (x :: l) -> ~ nfo y) -> StronglySorted not_after l -> Permutation (x :: l) (insert_key x l) /\ StronglySorted not_after (insert_key x l).
Proof.
  assert (K : forall y, ~ nfo y -> key_sort_music_files y = y) by (intros y H; destruct (key_nfo y) as [[_ X]|[X _]]; [contradiction|exact X]).
  induction l as [|y l IH]; intros N S; cbn [insert_key].
  - split; [apply Permutation_refl|]. constructor; constructor.
  - rewrite (K x), (K y) by (apply N; cbn; tauto). inversion S as [|? ? S' F]; subst. destruct (text_lt y x) eqn:E.
    + destruct IH as [P Q]; [intros z [I|I]; apply N; cbn; tauto|exact S'|]. split; [rewrite perm_swap; now constructor|]. constructor; [exact Q|].
      apply (Permutation_Forall P). constructor; [|exact F]. unfold not_after. rewrite <- before_lt. intros X. rewrite (text_lt_asym _ _ E) in X. discriminate.
    + split; [apply Permutation_refl|]. apply before_false in E. constructor; [exact S|]. constructor; [exact E|]. eapply Forall_impl; [|exact F]. intros z Z. now apply (not_after_trans x y z).
Qed.
Theorem sort_ok l : (forall x, In x l -> absolute x) ->
  exists first rest sorted, parted nfo l first rest /\ sort_music l = first ++ sorted /\ Permutation rest sorted /\ StronglySorted not_after sorted.
Proof.
  induction l as [|x l IH]; intros A.
  - exists [], [], []. repeat constructor.
  - destruct IH as (fi & re & so & P & E & R & S); [intros y I; apply A; now right|]. cbn [sort_music fold_right]. fold (sort_music l). rewrite E.
    assert (Nf : forall y, In y fi -> nfo y) by (clear - P; induction P; intros y I; [destruct I|destruct I as [<-|I]; auto|auto]).
    assert (Nr : forall y, In y re -> ~ nfo y /\ In y l) by (clear - P; induction P; intros y I; [destruct I|destruct (IHP y I); cbn; tauto|destruct I as [<-|I]; [cbn; tauto|destruct (IHP y I); cbn; tauto]]).
    assert (Ns : forall y, In y so -> ~ nfo y /\ absolute y) by (intros y I; apply (Permutation_in y (Permutation_sym R)) in I; destruct (Nr y I) as [X Y]; split; [exact X|apply A; now right]).
    destruct (key_nfo x) as [[Kx Hx]|[Kx Hx]].
    + exists (x :: fi), re, so. split; [now constructor|]. split; [|now split]. cbn [app]. destruct (fi ++ so) as [|y r] eqn:Z; [reflexivity|]. cbn [insert_key]. rewrite Kx.
      destruct fi as [|f fi].
      * cbn [app] in Z. subst so. destruct (Ns y (or_introl eq_refl)) as [Y (w & ->)]. destruct (key_nfo (47 :: w)) as [[_ X]|[-> _]]; [contradiction|]. reflexivity.
      * cbn [app] in Z. injection Z as -> _. destruct (key_nfo y) as [[-> _]|[_ X]]; [reflexivity|]. exfalso. apply X. apply Nf. now left.
    + destruct (insert_plain x so) as [Q T]; [intros y [<-|I]; [exact Hx|now apply Ns]|exact S|]. exists fi, (x :: re), (insert_key x so). split; [now constructor|]. split; [|split; [rewrite <- Q; now constructor|exact T]].
      destruct (A x (or_introl eq_refl)) as (w & Ew). clear - Nf Kx Ew. induction fi as [|f fi IH]; [reflexivity|]. cbn [app insert_key]. destruct (key_nfo f) as [[-> _]|[_ X]]; [|exfalso; apply X, Nf; now left].
      rewrite Kx, Ew. cbn [text_lt]. change (text_lt (str "-") (47 :: w)) with true. rewrite <- Ew, IH; [reflexivity|]. intros y I. apply Nf. now right.
Qed.

(** ** .srs files *)
Lemma remove_all_bad (bad : text -> bool) l : forall g, (forall x, In x g -> bad x = false) -> remove_all (filter bad l) (g ++ l) = Ok (g ++ filter (fun x => negb (bad x)) l).
Proof.
  induction l as [|x l IH]; intros g G; cbn [filter]; [reflexivity|]. destruct (bad x) eqn:B; cbn [negb remove_all].
  - rewrite remove_at by (intros I; apply G in I; congruence). cbn [bind]. now apply IH.
  - change (g ++ x :: l) with (g ++ [x] ++ l). rewrite app_assoc, IH by (intros y I; apply in_app_iff in I as [I|[<-|[]]]; auto). now rewrite <- app_assoc.
Qed.
Lemma crc_of_app es name n c : crc_of (es ++ [(n, c)]) name = if teqb (lower n) (lower name) then Some c else crc_of es name.
Proof. unfold crc_of. now rewrite fold_left_app. Qed.
Lemma crc_some es name c : crc_of es name = Some c -> exists n, In (n, c) es /\ lower n = lower name.
Proof.
  revert c. induction es as [|[n d] es IH] using rev_ind; intros c H; [discriminate|]. rewrite crc_of_app in H. destruct (teqb (lower n) (lower name)) eqn:T.
  - injection H as ->. exists n. split; [apply in_app_iff; right; now left|now apply teqb_eq].
  - destruct (IH c H) as (m & I & E). exists m. split; [apply in_app_iff; now left|exact E].
Qed.
Lemma crc_none es name : crc_of es name = None -> forall n c, In (n, c) es -> lower n <> lower name.
Proof.
  induction es as [|[m d] es IH] using rev_ind; intros H n c I E; [destruct I|]. rewrite crc_of_app in H. destruct (teqb (lower m) (lower name)) eqn:T; [discriminate|].
  apply in_app_iff in I as [I|[I|[]]]; [now apply (IH H n c)|]. injection I as -> ->. rewrite E, teqb_refl in T. discriminate.
Qed.
Theorem check_ok load es l : (forall n c m d, In (n, c) es -> In (m, d) es -> lower n = lower m -> c = d) ->
  exists l' dropped, check_music load es l = Ok l' /\
    parted (fun f => named ".srs" f -> exists n c, load f = Some (n, c) /\ forall m d, In (m, d) es -> lower m = lower n -> d = c) l l' dropped.
Proof.
  intros U. unfold check_music. exists (filter (fun x => negb (failed load es x)) l), (filter (fun x => negb (negb (failed load es x))) l). split; [now apply (remove_all_bad (failed load es) l [])|].
  apply parted_filter. intros f _. unfold failed. rewrite negb_true_iff. destruct (teqb (last4 f) (str ".srs")) eqn:T; cbn [andb].
  2:{ split; [|reflexivity]. intros _ H. apply (last4_end ".srs") in H; [|reflexivity]. rewrite H, teqb_refl in T. discriminate. }
  apply teqb_eq, last4_end in T; [|reflexivity]. destruct (load f) as [[n c]|].
  - destruct (crc_of es n) as [d|] eqn:C.
    + apply crc_some in C as (k & I & E). rewrite negb_false_iff, N.eqb_eq. split.
      * intros -> _. exists n, c. split; [reflexivity|]. intros m d J X. apply (U m d k c J I). congruence.
      * intros H. destruct (H T) as (n' & c' & X & Y). injection X as <- <-. now apply (Y k d).
    + split; [|reflexivity]. intros _ _. exists n, c. split; [reflexivity|]. intros m d J X. exfalso. now apply (crc_none es n C m d).
  - split; [discriminate|]. intros H. destruct (H T) as (n' & c' & X & _). discriminate.
Qed.

(** ** Files that are left out *)
Section Exclude.
Variables (skip_list : list text) (skipre : text -> bool).
Let keep (f : text) : bool := negb (mem_text (basename f) skip_list) && negb (skipre f).
Let both (f : text) : bool := mem_text (basename f) skip_list && skipre f.
Lemma exclude_all todo : forall g, (forall f, In f g -> keep f = true) -> existsb both todo = false -> exclude_loop skip_list skipre todo (g ++ todo) = Ok (g ++ filter keep todo).
Proof.
  induction todo as [|f todo IH]; intros g Kg B; cbn [exclude_loop filter]; [reflexivity|].
  cbn [existsb] in B. apply orb_false_iff in B as [Bf B]. assert (Ng : keep f = false -> ~ In f g) by (intros X I; apply Kg in I; congruence).
  assert (Kf : keep f = negb (mem_text (basename f) skip_list) && negb (skipre f)) by reflexivity. unfold both in Bf.
  destruct (mem_text (basename f) skip_list), (skipre f); try discriminate; cbn [negb andb] in Kf; rewrite Kf.
  - rewrite remove_at by auto. cbn [bind]. now apply IH.
  - cbn [bind]. rewrite remove_at by auto. cbn [bind]. now apply IH.
  - cbn [bind]. change (g ++ f :: todo) with (g ++ [f] ++ todo). rewrite app_assoc, IH; [now rewrite <- app_assoc| |exact B]. intros y I. apply in_app_iff in I as [I|[<-|[]]]; [now apply Kg|exact Kf].
Qed.
Theorem exclude_ok l : (forall f, In f l -> In (basename f) skip_list -> skipre f = true -> False) ->
  exists l' skipped, exclude skip_list skipre l = Ok l' /\ parted (fun f => ~ In (basename f) skip_list /\ skipre f = false) l l' skipped.
Proof.
  intros H. exists (filter keep l), (filter (fun f => negb (keep f)) l). split.
  - apply (exclude_all l []); [intros f []|]. apply not_true_iff_false. intros X. apply existsb_exists in X as (f & I & X). unfold both in X. apply andb_true_iff in X as [X Y]. apply mem_spec in X. now apply (H f I X Y).
  - apply parted_filter. intros x _. unfold keep. rewrite andb_true_iff, !negb_true_iff, <- (not_true_iff_false (mem_text _ _)), mem_spec. reflexivity.
Qed.
(** a file that both options name ends the run *)
Lemma exclude_stops todo : forall l, (forall f, In f todo -> In f l) -> NoDup l -> existsb both todo = true -> NoDup todo -> exclude_loop skip_list skipre todo l = Err ValueError.
Proof.
  induction todo as [|f todo IH]; intros l T U B D; [discriminate|]. cbn [existsb] in B. inversion D as [|? ? Nf D']; subst. cbn [exclude_loop].
  destruct (in_split f l (T f (or_introl eq_refl))) as (a & b & ->). pose proof (NoDup_remove_2 _ _ _ U) as N. pose proof (NoDup_remove_1 _ _ _ U) as U'.
  assert (T' : forall g, In g todo -> In g (a ++ b)).
  { intros g I. pose proof (T g (or_intror I)) as J. apply in_app_iff in J as [J|[J|J]]; [apply in_app_iff; now left|subst; contradiction|apply in_app_iff; now right]. }
  assert (E : remove f (a ++ f :: b) = Ok (a ++ b)) by (apply remove_at; intros I; apply N, in_app_iff; now left).
  unfold both in B at 1. destruct (mem_text (basename f) skip_list); cbn [andb orb] in B.
  - rewrite E. cbn [bind]. destruct (skipre f); cbn [orb] in B.
    + now rewrite remove_none.
    + cbn [bind]. apply IH; auto.
  - cbn [bind]. destruct (skipre f); cbn [bind].
    + rewrite E. cbn [bind]. apply IH; auto.
    + apply IH; auto. intros g I. apply T. now right.
Qed.
Theorem exclude_error l f : NoDup l -> In f l -> In (basename f) skip_list -> skipre f = true -> exclude skip_list skipre l = Err ValueError.
Proof.
  intros U I M R. unfold exclude. apply exclude_stops; auto. apply existsb_exists. exists f. split; [exact I|]. unfold both. apply mem_spec in M. now rewrite M, R.
Qed.
End Exclude.

(** ** Archives above their SFV files *)
Lemma first4_end e x : lenN (str e) = 4 -> named e x -> lower x = first4 x ++ str e.
Proof.
  intros L H. apply (last4_end e x L) in H. rewrite <- H. unfold first4, last4. now rewrite <- lower_app, takeN_dropN.
Qed.
Definition packed (m : text) : bool := teqb (last4 m) (str ".srr") || teqb (last4 m) (str ".rar").
Lemma split_end x e : lower x = first4 x ++ str e -> lenN (str e) = 4 -> exists b f, x = b ++ f /\ lower f = str e /\ lower b = first4 x.
Proof.
  intros E L. exists (takeN (lenN x - 4) x), (dropN (lenN x - 4) x). split; [symmetry; apply takeN_dropN|]. split; [|reflexivity]. apply (last4_end e x L). exists (first4 x). exact E.
Qed.
Lemma low_len (x : text) : lenN (lower x) = lenN x. Proof. unfold lower. now rewrite !lenN_length, map_length. Qed.
Lemma first4_of b e : lenN e = 4 -> first4 (b ++ e) = lower b.
Proof. intros L. unfold first4. rewrite lenN_app, L. replace (lenN b + 4 - 4) with (lenN b) by lia. now rewrite takeN_app_exact. Qed.
Lemma belongs_spec m s : belongs m s <-> packed m = true /\ sfv_for m = lower s.
Proof.
  unfold packed, sfv_for. rewrite orb_true_iff, !teqb_eq, !last4_end by reflexivity. split.
  - intros (b & e & c & f & -> & He & -> & Hf & Hb). assert (Le : lenN e = 4) by (rewrite <- low_len; destruct He as [-> | ->]; reflexivity). split.
    + destruct He as [He|He]; [left|right]; exists (lower b); now rewrite lower_app, He.
    + rewrite (first4_of b e Le), lower_app, Hf, Hb. reflexivity.
  - intros [He E]. assert (X : exists x, In x [".srr"; ".rar"]%string /\ named x m) by (destruct He as [H|H]; eexists; (split; [|exact H]); cbn; tauto).
    destruct X as (x & I & X). assert (Lx : lenN (str x) = 4) by (cbn in I; destruct I as [<-|[<-|[]]]; reflexivity).
    pose proof (first4_end x m Lx X) as Em. apply split_end in Em as (b & e & -> & Ee & Eb); [|exact Lx].
    assert (Ns : named ".sfv" s) by (exists (first4 (b ++ e)); now rewrite <- E). pose proof (first4_end ".sfv" s eq_refl Ns) as Es. rewrite Es in E. apply app_inv_tail in E.
    apply split_end in Es as (c & f & -> & Ef & Ec); [|reflexivity]. exists b, e, c, f. split; [reflexivity|]. split; [cbn in I; destruct I as [<-|[<-|[]]]; tauto|]. split; [reflexivity|]. split; [exact Ef|]. congruence.
Qed.
Lemma not_own m x : packed x = true -> sfv_for m <> lower x.
Proof.
  intros H E. assert (N : named ".sfv" x) by (exists (first4 m); now rewrite <- E). apply last4_end in N; [|reflexivity]. unfold packed in H. rewrite N in H. discriminate.
Qed.
Definition own (ms : list text) (x : text) : list text := filter (fun m => teqb (sfv_for m) (lower x)) ms.
Definition weave (ms base : list text) : list text := concat (map (fun x => own ms x ++ [x]) base).
Lemma weave_app ms a b : weave ms (a ++ b) = weave ms a ++ weave ms b.
Proof. unfold weave. now rewrite map_app, concat_app. Qed.
Lemma weave_cons ms x b : weave ms (x :: b) = own ms x ++ x :: weave ms b.
Proof. unfold weave. cbn [map concat]. now rewrite <- app_assoc. Qed.
Lemma weave_in ms base y : In y (weave ms base) -> In y ms \/ In y base.
Proof.
  intros I. unfold weave in I. apply in_concat in I as (g & J & I). apply in_map_iff in J as (x & <- & J). apply in_app_iff in I as [I|[<-|[]]]; [|now right]. left. now apply filter_In in I.
Qed.
Lemma own_none ms x : packed x = true -> own ms x = [].
Proof. intros H. unfold own. induction ms as [|m ms IH]; [reflexivity|]. cbn [filter]. now rewrite teqb_neq by (now apply not_own). Qed.
Lemma own_snoc ms m x : own (ms ++ [m]) x = own ms x ++ (if teqb (sfv_for m) (lower x) then [m] else []).
Proof. unfold own. rewrite filter_app. cbn [filter]. reflexivity. Qed.
Lemma weave_other ms m base : (forall x, In x base -> sfv_for m <> lower x) -> weave (ms ++ [m]) base = weave ms base.
Proof.
  induction base as [|x base IH]; intros H; [reflexivity|]. rewrite !weave_cons, own_snoc, teqb_neq, app_nil_r by (apply H; now left). rewrite IH; [reflexivity|]. intros y I. apply H. now right.
Qed.
Lemma move_step ms m p q u s v : packed m = true -> (forall x, In x ms -> packed x = true) -> ~ In m ms -> ~ In m p ->
  p ++ q = u ++ s :: v -> sfv_for m = lower s -> (forall x, In x (u ++ v) -> sfv_for m <> lower x) ->
  (do l <- remove m (weave ms (p ++ m :: q)); do i <- index (sfv_for m) (map lower l); Ok (insert i m l)) = Ok (weave (ms ++ [m]) (p ++ q)).
Proof.
  intros Pm Pms Nm Np E Es Ho. rewrite weave_app, weave_cons, (own_none ms m Pm). cbn [app].
  rewrite remove_at by (intros I; apply weave_in in I as [I|I]; contradiction). cbn [bind]. rewrite <- weave_app, E, !weave_app, !weave_cons.
  rewrite app_assoc. rewrite map_app. cbn [map]. rewrite <- Es, index_at, map_length.
  2:{ intros I. apply in_map_iff in I as (y & Y & I). apply in_app_iff in I as [I|I].
      - apply weave_in in I as [I|I]; [now apply (not_own m y (Pms y I))|]. apply (Ho y); [apply in_app_iff; now left|now symmetry].
      - apply filter_In in I as [I _]. now apply (not_own m y (Pms y I)). }
  cbn [bind]. rewrite insert_at. rewrite own_snoc, Es, teqb_refl, !weave_other by (intros x I; apply Ho, in_app_iff; tauto). rewrite <- !app_assoc. reflexivity.
Qed.
Section Move.
Variable l : list text.
Hypothesis U : NoDup l.
Hypothesis One : forall m x y, In m l -> In x l -> In y l -> belongs m x -> belongs m y -> x = y.
Let mv (m : text) : bool := packed m && mem_text (sfv_for m) (map lower l).
Lemma mv_spec m : mv m = true <-> exists x, In x l /\ belongs m x.
Proof.
  unfold mv. rewrite andb_true_iff, mem_spec, in_map_iff. split.
  - intros [P (x & E & I)]. exists x. split; [exact I|]. now apply belongs_spec.
  - intros (x & I & B). apply belongs_spec in B as [P E]. split; [exact P|]. exists x. now split.
Qed.
Lemma sfv_stays x m : belongs m x -> mv x = false.
Proof. intros B. apply belongs_spec in B as [_ B]. apply not_true_iff_false. intros X. unfold mv in X. apply andb_true_iff in X as [X _]. now apply (not_own m x X). Qed.
Lemma filter_split {A} (p : A -> bool) (k a b : list A) x : filter p k = a ++ x :: b -> exists k1 k2, k = k1 ++ x :: k2 /\ filter p k1 = a /\ filter p k2 = b /\ p x = true.
Proof.
  revert a. induction k as [|y k IH]; intros a E; [destruct a; discriminate|]. cbn [filter] in E. destruct (p y) eqn:P.
  - destruct a as [|z a]; cbn [app] in E.
    + injection E as -> E. exists [], k. cbn. auto.
    + injection E as -> E. destruct (IH a E) as (k1 & k2 & -> & A1 & A2 & A3). exists (z :: k1), k2. cbn [app filter]. rewrite P, A1. auto.
  - destruct (IH a E) as (k1 & k2 & -> & A1 & A2 & A3). exists (y :: k1), k2. cbn [app filter]. rewrite P. auto.
Qed.
(** done are the files moved so far, [base] what stays of [l] without them *)
Lemma move_all todo : forall done base, filter mv l = done ++ todo -> filter mv base = todo -> (forall x, In x base -> In x l) -> NoDup base -> (forall x, In x l -> mv x = false -> In x base) ->
  move_loop todo (weave done base) = Ok (weave (done ++ todo) (filter (fun x => negb (mv x)) base)).
Proof.
  induction todo as [|m todo IH]; intros done base D T B Ub Ob; cbn [move_loop].
  - rewrite app_nil_r. f_equal. f_equal. clear - T. induction base as [|x base IH]; [reflexivity|]. cbn [filter] in *. destruct (mv x); [discriminate|]. cbn [negb]. now rewrite <- IH.
  - destruct (filter_split mv base [] todo m T) as (p & q & -> & Fp & Fq & Mm). pose proof (NoDup_remove_2 _ _ _ Ub) as Nm. pose proof (NoDup_remove_1 _ _ _ Ub) as Upq.
    assert (Im : In m l) by (apply B, in_app_iff; right; now left). destruct (proj1 (mv_spec m) Mm) as (s & Is & Bs). pose proof (proj1 (belongs_spec m s) Bs) as [Pm Es].
    assert (Js : In s (p ++ q)).
    { pose proof (Ob s Is (sfv_stays s m Bs)) as J. apply in_app_iff in J as [J|[J|J]]; [apply in_app_iff; now left| |apply in_app_iff; now right]. subst s. rewrite (sfv_stays m m Bs) in Mm. discriminate. }
    apply in_split in Js as (u & v & Epq).
    assert (Sub : forall x, In x (p ++ q) -> In x l) by (intros x I; apply B, in_app_iff; apply in_app_iff in I as [I|I]; [now left|right; now right]).
    assert (Ud : NoDup (done ++ m :: todo)) by (rewrite <- D; now apply NoDup_filter).
    assert (Pd : forall x, In x done -> packed x = true).
    { intros x I. assert (J : In x (filter mv l)) by (rewrite D; apply in_app_iff; now left). apply filter_In in J as [_ J]. unfold mv in J. now apply andb_true_iff in J. }
    assert (St : (do k <- remove m (weave done (p ++ m :: q)); do i <- index (sfv_for m) (map lower k); Ok (insert i m k)) = Ok (weave (done ++ [m]) (p ++ q))).
    { apply (move_step done m p q u s v); auto.
      - intros I. apply NoDup_remove_2 in Ud. apply Ud, in_app_iff. now left.
      - intros I. apply Nm, in_app_iff. now left.
      - intros x I X. rewrite Epq in Upq. assert (Bx : belongs m x) by (apply belongs_spec; now split).
        assert (Hx : x = s) by (apply (One m x s Im); auto; apply Sub; rewrite Epq; apply in_app_iff in I as [I|I]; apply in_app_iff; [now left|right; now right]).
        subst x. now apply NoDup_remove_2 in Upq. }
    destruct (remove m (weave done (p ++ m :: q))) as [k|]; [|discriminate]. cbn [bind] in *. destruct (index (sfv_for m) (map lower k)) as [i|]; [|discriminate]. cbn [bind] in *. injection St as ->.
    rewrite IH.
    + rewrite <- app_assoc. cbn [app]. f_equal. f_equal. rewrite !filter_app. cbn [filter]. now rewrite Mm.
    + rewrite <- app_assoc. exact D.
    + rewrite filter_app, Fp, Fq. reflexivity.
    + exact Sub.
    + exact Upq.
    + intros x I X. pose proof (Ob x I X) as J. apply in_app_iff in J as [J|[J|J]]; [apply in_app_iff; now left|subst x; congruence|apply in_app_iff; now right].
Qed.
Lemma weave_nil base : weave [] base = base.
Proof. induction base as [|x base IH]; [reflexivity|]. rewrite weave_cons, IH. reflexivity. Qed.
Lemma weave_stacked ms base : (forall x, In x ms -> packed x = true) -> stacked ms base (weave ms base).
Proof.
  intros P. induction base as [|x base IH]; [constructor|]. rewrite weave_cons. econstructor; [|exact IH]. apply parted_filter. intros m I. rewrite belongs_spec, teqb_eq. split; [intros E; split; [now apply P|exact E]|now intros [_ E]].
Qed.
Theorem move_ok : exists ms rest l', parted (fun m => exists x, In x l /\ belongs m x) l ms rest /\ move l = Ok l' /\ stacked ms rest l'.
Proof.
  exists (filter mv l), (filter (fun x => negb (mv x)) l), (weave (filter mv l) (filter (fun x => negb (mv x)) l)). split; [apply parted_filter; intros x _; apply mv_spec|]. split.
  - unfold move. change (to_move l) with (filter mv l). rewrite <- (weave_nil l) at 2. now apply (move_all (filter mv l) [] l).
  - apply weave_stacked. intros x I. apply filter_In in I as [_ I]. unfold mv in I. now apply andb_true_iff in I.
Qed.
End Move.
(** nothing is lost *)
Theorem move_perm l l' : move l = Ok l' -> Permutation l l'.
Proof.
  unfold move. generalize (to_move l) as ms. intros ms. revert l. induction ms as [|m ms IH]; intros l H; cbn [move_loop] in H; [injection H as ->; apply Permutation_refl|].
  destruct (remove m l) as [k|] eqn:R; [|discriminate]. cbn [bind] in H. destruct (index (sfv_for m) (map lower k)) as [i|]; [|discriminate]. cbn [bind] in H. apply IH in H. rewrite <- H.
  assert (P : Permutation l (m :: k)).
  { clear - R. revert k R. induction l as [|y l IHl]; intros k R; cbn [remove] in R; [discriminate|]. destruct (teqb m y) eqn:T.
    - injection R as ->. apply teqb_eq in T. now subst.
    - destruct (remove m l) as [r|]; [|discriminate]. cbn [bind] in R. injection R as <-. rewrite perm_swap. constructor. now apply IHl. }
  rewrite P. unfold insert. rewrite <- (firstn_skipn i k) at 1. apply Permutation_middle.
Qed.
