(** UsePrepFacts: proofs about the choice of files in an NZB file. *)
From Coq Require Import Permutation Sorted.
From Verif Require Import VolName VolSpec VolFacts.
From Verif Require NzbSplit NzbSplitFacts SfvSortFacts.
From Verif Require Import Base BaseFacts SrrSpec InfoSpec InfoFacts StoredFacts Sfv UsePrep UsePrepSpec.

(** ** Small things *)
Lemma teqb_ne a b : teqb a b = false -> a <> b.
Proof. intros H ->. now rewrite teqb_refl in H. Qed.
Lemma contains_ok a b : contains a b = true <-> inside a b.
Proof. exact (NzbSplitFacts.contains_spec a b). Qed.
Lemma contains_no a b : contains a b = false <-> ~ inside a b.
Proof. rewrite <- contains_ok. destruct (contains a b); split; congruence. Qed.
Lemma ends_ok e n : ends e n = true <-> ending e n.
Proof. unfold ends. apply ends_with_spec. Qed.
Lemma ext_ok e n : (length (str e) = 4)%nat -> teqb (extension n) (str e) = true <-> with_ext e n.
Proof.
  intros L. rewrite teqb_eq. unfold extension, with_ext. split.
  - intros H. exists (firstn (length n - 4) n), (skipn (length n - 4) n). split; [symmetry; apply firstn_skipn|]. split; [exact H|].
    apply (f_equal (@length _)) in H. unfold lower in H. rewrite map_length, L in H. exact H.
  - intros (b & x & -> & E & Lx). rewrite app_length, Lx. replace (length b + 4 - 4)%nat with (length b) by lia. rewrite skipn_app, skipn_all, Nat.sub_diag. exact E.
Qed.
Lemma filter_in {X} (f : X -> bool) l x : In x (filter f l) -> In x l.
Proof. rewrite filter_In. tauto. Qed.
Lemma named_in n l p : In p (named n l) <-> In p l /\ p_name p = n.
Proof. unfold named. rewrite filter_In. destruct (text_dec (p_name p) n); split; intuition congruence. Qed.
Lemma named_cons n p l : named n (p :: l) = if text_dec (p_name p) n then p :: named n l else named n l.
Proof. unfold named. cbn [filter]. now destruct (text_dec (p_name p) n). Qed.
Lemma bytes_size p : post_bytes p = size p.
Proof. unfold post_bytes, size. induction (p_segs p) as [|ks l IH]; [reflexivity|]. cbn [map fold_right total]. now rewrite IH. Qed.

(** ** The best of several *)
Section Best.
Variable gt : post -> post -> bool.
Hypothesis asym : forall a b, gt a b = true -> gt b a = false.
Hypothesis negtrans : forall a b c, gt a b = false -> gt b c = false -> gt a c = false.
Definition best (c : post) (l : list post) : post := fold_left (fun c q => if gt q c then q else c) l c.
Lemma best_ok l : forall c, exists a b, c :: l = a ++ best c l :: b /\ (forall q, In q a -> gt (best c l) q = true) /\ (forall q, In q b -> gt q (best c l) = false).
Proof.
  induction l as [|q l IH] using rev_ind; intros c; [exists [], []; repeat split; intros q []|].
  destruct (IH c) as (a & b & E & G1 & G2). unfold best in *. rewrite fold_left_app. cbn [fold_left]. set (p := fold_left _ l c) in *.
  destruct (gt q p) eqn:Q.
  - exists (c :: l), []. split; [reflexivity|]. split; [|intros x []]. intros x Hx. rewrite E in Hx.
    assert (X : gt x p = false). { apply in_app_iff in Hx as [Hx|[<-|Hx]]; [apply asym; now apply G1| |now apply G2]. destruct (gt p p) eqn:Z; [|reflexivity]. now rewrite (asym _ _ Z) in Z. }
    destruct (gt q x) eqn:Y; [reflexivity|]. now rewrite (negtrans q x p Y X) in Q.
  - exists a, (b ++ [q]). split; [rewrite app_comm_cons, E, <- app_assoc; reflexivity|]. split; [exact G1|]. intros x Hx. apply in_app_iff in Hx as [Hx|[<-|[]]]; [now apply G2|exact Q].
Qed.
Lemma best_unique (l : list post) p p' a b a' b' : l = a ++ p :: b -> l = a' ++ p' :: b' -> (forall q, In q a -> gt p q = true) -> (forall q, In q b -> gt q p = false) ->
  (forall q, In q a' -> gt p' q = true) -> (forall q, In q b' -> gt q p' = false) -> p = p'.
Proof.
  intros E E' A B A' B'. subst l. revert a' E' A'. induction a as [|x a IH]; intros [|y a'] E' A'; cbn [app] in E'.
  - now injection E'.
  - injection E' as <- E'. exfalso. assert (In p' b) by (rewrite E', in_app_iff; right; now left). specialize (B _ H). specialize (A' p (or_introl eq_refl)). congruence.
  - injection E' as <- E'. exfalso. assert (In p b') by (rewrite <- E', in_app_iff; right; now left). specialize (B' _ H). specialize (A x (or_introl eq_refl)). congruence.
  - injection E' as <- E'. apply (IH (fun q Hq => A q (or_intror Hq)) a' E'). intros q Hq. apply A'. now right.
Qed.
Lemma best_first l c p : best c l = p <-> first_best (fun a b => gt a b = true) (c :: l) p.
Proof.
  destruct (best_ok l c) as (a & b & E & G1 & G2). split.
  - intros <-. exists a, b. split; [exact E|]. split; [exact G1|]. intros q Hq. rewrite (G2 q Hq). discriminate.
  - intros (a' & b' & E' & A & B). refine (best_unique (c :: l) _ p a b a' b' E E' G1 G2 A _). intros q Hq. specialize (B q Hq). destruct (gt q p); congruence.
Qed.
End Best.

(** ** A dictionary of the best *)
Lemma get_set k k' p d : get_post k (set_post k' p d) = if teqb k k' then Some p else get_post k d.
Proof.
  induction d as [|[q r] d IH]; cbn [set_post get_post].
  - destruct (teqb k' k) eqn:E; [apply teqb_eq in E; subst; now rewrite teqb_refl|]. apply teqb_ne in E. destruct (teqb k k') eqn:F; [apply teqb_eq in F; congruence|reflexivity].
  - destruct (teqb q k') eqn:E; cbn [get_post].
    + apply teqb_eq in E. subst q. destruct (teqb k' k) eqn:F; [apply teqb_eq in F; subst; now rewrite teqb_refl|]. apply teqb_ne in F. destruct (teqb k k') eqn:G; [apply teqb_eq in G; congruence|reflexivity].
    + rewrite IH. destruct (teqb q k) eqn:F; [|reflexivity]. apply teqb_eq in F. subst q. destruct (teqb k k') eqn:G; [congruence|reflexivity].
Qed.
Lemma set_keys k p d : map fst (set_post k p d) = if existsb (teqb k) (map fst d) then map fst d else map fst d ++ [k].
Proof.
  induction d as [|[q r] d IH]; [reflexivity|]. cbn [set_post map fst existsb]. destruct (teqb q k) eqn:E.
  - apply teqb_eq in E. subst q. rewrite teqb_refl. reflexivity.
  - cbn [map fst]. rewrite IH. destruct (teqb k q) eqn:F; [apply teqb_eq in F; subst; now rewrite teqb_refl in E|]. cbn [orb]. now destruct (existsb (teqb k) (map fst d)).
Qed.
Lemma set_nodup k p d : NoDup (map fst d) -> NoDup (map fst (set_post k p d)).
Proof.
  intros N. rewrite set_keys. destruct (existsb (teqb k) (map fst d)) eqn:E; [exact N|]. apply (Permutation_NoDup (Permutation_cons_append (map fst d) k)).
  constructor; [|exact N]. intros I. assert (existsb (teqb k) (map fst d) = true); [|congruence]. apply existsb_exists. exists k. split; [exact I|apply teqb_refl].
Qed.
Lemma get_in k p d : NoDup (map fst d) -> get_post k d = Some p <-> In (k, p) d.
Proof.
  induction d as [|[q r] d IH]; intros N; cbn [get_post]; [split; [discriminate|intros []]|]. inversion N as [|? ? Nq Nd]; subst. destruct (teqb q k) eqn:E.
  - apply teqb_eq in E. subst q. split; [intros H; injection H as <-; now left|]. intros [H|H]; [congruence|]. exfalso. apply Nq. now apply (in_map fst) in H.
  - apply teqb_ne in E. rewrite (IH Nd). split; [now right|]. intros [H|H]; [congruence|exact H].
Qed.
Section Dict.
Variable gt : post -> post -> bool.
Definition upd (d : posts) (p : post) : posts :=
  set_post (p_name p) (match get_post (p_name p) d with Some c => if gt p c then p else c | None => p end) d.
Lemma upd_get l : forall d n, get_post n (fold_left upd l d) =
  match get_post n d with Some c => Some (best gt c (named n l)) | None => match named n l with [] => None | c :: r => Some (best gt c r) end end.
Proof.
  induction l as [|p l IH]; intros d n; [cbn; now destruct (get_post n d)|]. cbn [fold_left]. rewrite IH, named_cons. unfold upd. rewrite get_set. destruct (text_dec (p_name p) n) as [E|E].
  - subst n. rewrite teqb_refl. destruct (get_post (p_name p) d) as [c|]; [|reflexivity]. reflexivity.
  - destruct (teqb n (p_name p)) eqn:F; [apply teqb_eq in F; congruence|reflexivity].
Qed.
Lemma upd_nodup l : forall d, NoDup (map fst d) -> NoDup (map fst (fold_left upd l d)).
Proof. induction l as [|p l IH]; intros d N; [exact N|]. cbn [fold_left]. apply IH. now apply set_nodup. Qed.
(** each is the best of its name *)
Lemma upd_best (asym : forall a b, gt a b = true -> gt b a = false) (nt : forall a b c, gt a b = false -> gt b c = false -> gt a c = false) l n p :
  get_post n (fold_left upd l []) = Some p <-> first_best (fun a b => gt a b = true) (named n l) p.
Proof.
  rewrite upd_get. cbn [get_post]. destruct (named n l) as [|c r]; [split; [discriminate|intros ([|? ?] & ? & ? & _); discriminate]|].
  rewrite <- (best_first gt asym nt). split; [intros H; now injection H|intros ->; reflexivity].
Qed.
End Dict.

(** ** Posts of one name *)
Lemma seg_eq_bytes a b : seg_eq a b = true -> a = b.
Proof.
  unfold seg_eq. intros H. apply andb_true_iff in H as [H H3]. apply andb_true_iff in H as [H1 H2]. apply N.eqb_eq in H1, H2. apply teqb_eq in H3. destruct a, b. cbn in *. now subst.
Qed.
Lemma seg_eq_refl a : seg_eq a a = true.
Proof. unfold seg_eq. now rewrite !N.eqb_refl, teqb_refl. Qed.
Lemma get_seg_in k s d : get_seg k d = Some s -> In (k, s) d.
Proof. induction d as [|[q t] d IH]; cbn [get_seg]; [discriminate|]. destruct (N.eqb_spec q k) as [->|]; [intros H; injection H as ->; now left|]. intros H. right. auto. Qed.
Lemma in_get_seg k s d : NoDup (map fst d) -> In (k, s) d -> get_seg k d = Some s.
Proof.
  induction d as [|[q t] d IH]; intros N I; [destruct I|]. inversion N as [|? ? Nq Nd]; subst. cbn [get_seg]. destruct I as [I|I].
  - injection I as -> ->. now rewrite N.eqb_refl.
  - destruct (N.eqb_spec q k) as [->|]; [exfalso; apply Nq; now apply (in_map fst) in I|auto].
Qed.
Lemma post_eq_incl a b : post_eq a b = true -> incl (p_segs a) (p_segs b) /\ (length (p_segs a) = length (p_segs b))%nat.
Proof.
  unfold post_eq. intros H. apply andb_true_iff in H as [H1 H2]. apply andb_true_iff in H1 as [_ H1]. apply N.eqb_eq in H1. rewrite !lenN_length in H1. split; [|lia].
  rewrite forallb_forall in H2. intros [k s] I. specialize (H2 _ I). cbn [fst snd] in H2. destruct (get_seg k (p_segs b)) as [t|] eqn:E; [|discriminate]. apply seg_eq_bytes in H2. subst t. now apply get_seg_in.
Qed.
Lemma post_eq_refl a : one_each a -> post_eq a a = true.
Proof.
  intros O. unfold post_eq. rewrite !N.eqb_refl. cbn [andb]. apply forallb_forall. intros [k s] I. cbn [fst snd]. now rewrite (in_get_seg k s _ O I), seg_eq_refl.
Qed.
Lemma total_perm a b : Permutation a b -> total a = total b.
Proof. induction 1; cbn [total]; lia. Qed.
Lemma one_each_nodup p : one_each p -> NoDup (p_segs p).
Proof. unfold one_each. apply NoDup_map_inv. Qed.
Lemma post_eq_size a b : one_each a -> post_eq a b = true -> size a = size b.
Proof.
  intros O H. apply post_eq_incl in H as [I L]. apply total_perm. apply NoDup_Permutation_bis; [now apply one_each_nodup|lia|exact I].
Qed.
Definition gtb (a b : post) : bool := post_bytes b <? post_bytes a.
Lemma gtb_asym a b : gtb a b = true -> gtb b a = false.
Proof. unfold gtb. lia. Qed.
Lemma gtb_nt a b c : gtb a b = false -> gtb b c = false -> gtb a c = false.
Proof. unfold gtb. lia. Qed.
Lemma prep_files l : Forall one_each l -> forall s, (forall n p, In (n, p) (r_files s) -> one_each p) ->
  r_files (fold_left prep_step l s) = fold_left (upd gtb) l (r_files s).
Proof.
  induction l as [|p l IH]; intros O s Os; [reflexivity|]. inversion O as [|? ? Op Ol]; subst. cbn [fold_left].
  assert (E : r_files (prep_step s p) = upd gtb (r_files s) p).
  { unfold prep_step, upd. cbn [r_files]. f_equal. destruct (get_post (p_name p) (r_files s)) as [o|] eqn:G.
    - destruct (post_eq o p) eqn:Q; cbn [negb]; [|reflexivity]. assert (Oo : one_each o).
      { apply (Os (p_name p)). clear - G. induction (r_files s) as [|[q r] d IHd]; [discriminate|]. cbn [get_post] in G. destruct (teqb q (p_name p)) eqn:E; [apply teqb_eq in E; injection G as ->; subst; now left|right; auto]. }
      pose proof (post_eq_size o p Oo Q) as Z. unfold gtb. rewrite !bytes_size, Z, N.ltb_irrefl. reflexivity.
    - rewrite (post_eq_refl p Op). reflexivity. }
  rewrite IH; [now rewrite E|exact Ol|]. rewrite E. unfold upd. intros n q I.
  assert (X : forall k v d, In (n, q) (set_post k v d) -> q = v \/ In (n, q) d).
  { clear. intros k v d. induction d as [|[a b] d IHd]; cbn [set_post]; [intros [H|[]]; injection H; auto|]. destruct (teqb a k); intros [H|H]; [injection H; auto|right; now right|right; now left|]. apply IHd in H as [H|H]; [now left|right; now right]. }
  apply X in I as [->|I]; [|now apply (Os n)]. destruct (get_post (p_name p) (r_files s)) as [o|] eqn:G; [|exact Op]. destruct (gtb p o); [exact Op|].
  apply (Os (p_name p)). clear - G. induction (r_files s) as [|[a b] d IHd]; [discriminate|]. cbn [get_post] in G. destruct (teqb a (p_name p)) eqn:E; [apply teqb_eq in E; injection G as ->; subst; now left|right; auto].
Qed.
Lemma files_best l n p : Forall one_each l -> get_post n (r_files (prep_all l)) = Some p <-> first_best bigger (named n l) p.
Proof.
  intros O. unfold prep_all. rewrite (prep_files l O) by intros ? ? []. cbn [r_files]. rewrite (upd_best gtb gtb_asym gtb_nt).
  unfold first_best, gtb, bigger. split; intros (a & b & E & A & B); exists a, b; (split; [exact E|]); split; intros q Hq; specialize (A q) || idtac; specialize (B q) || idtac; rewrite ?bytes_size in *; try (apply N.ltb_lt; now apply A); try (specialize (A Hq); rewrite !bytes_size in A; lia);
    specialize (B Hq); rewrite ?bytes_size in *; lia.
Qed.
Lemma files_nodup l : Forall one_each l -> NoDup (map fst (r_files (prep_all l))).
Proof. intros O. unfold prep_all. rewrite (prep_files l O) by intros ? ? []. apply upd_nodup. constructor. Qed.
Lemma set_seg_keys k v (d : list (N * seg)) : NoDup (map fst d) -> NoDup (map fst (set_seg k v d)) /\ forall x, In x (map fst (set_seg k v d)) -> x = k \/ In x (map fst d).
Proof.
  induction d as [|[q r] d IH]; intros N; cbn [set_seg map fst]; [split; [repeat constructor; intros []|intros x [<-|[]]; now left]|]. inversion N as [|? ? Nq Nd]; subst. destruct (N.eqb_spec q k) as [->|E]; cbn [map fst].
  - split; [exact N|intros x H; now right].
  - destruct (IH Nd) as [N' X]. split; [constructor; [intros I; apply X in I as [?|?]; auto|exact N']|]. intros x [<-|H]; [right; now left|]. apply X in H as [H|H]; [now left|right; now right].
Qed.
Lemma made_one_each subject segs : one_each (make_post subject segs).
Proof.
  unfold one_each, make_post. cbn [p_segs]. assert (X : forall d, NoDup (map fst d) -> NoDup (map fst (fold_left (fun d s => set_seg (g_num s) s d) segs d))).
  { induction segs as [|s segs IH]; intros d N; [exact N|]. cbn [fold_left]. apply IH. now apply set_seg_keys. }
  apply X. constructor.
Qed.

(** ** Refused *)
Lemma first_best_in gt l p : first_best gt l p -> In p l.
Proof. intros (a & b & -> & _). apply in_app_iff. right. now left. Qed.
Lemma best_name gt n l p : first_best gt (named n l) p -> p_name p = n /\ In p l.
Proof. intros H. apply first_best_in in H. apply named_in in H. tauto. Qed.
Lemma alnum_ok c : alnum c = true <-> letter_digit c.
Proof. unfold alnum, letter_digit. lia. Qed.
Lemma kere_ok n : kere_name n = true <-> exists b x, n = b ++ x /\ (length b = 20)%nat /\ (length x = 4)%nat /\ Forall letter_digit b /\ lower x = str ".rar".
Proof.
  unfold kere_name. rewrite !andb_true_iff, (ext_ok ".rar" n eq_refl), N.eqb_eq, lenN_length. split.
  - intros [[(b & x & -> & E & L) Z] F]. rewrite app_length, L in Z. assert (Lb : (length b = 20)%nat) by lia. exists b, x. repeat split; try assumption.
    rewrite <- Lb, firstn_app, firstn_all, Nat.sub_diag, app_nil_r in F. rewrite forallb_forall in F. apply Forall_forall. intros c Hc. now apply alnum_ok, F.
  - intros (b & x & -> & Lb & Lx & F & E). split; [split; [exists b, x; auto|rewrite app_length, Lb, Lx; reflexivity]|]. rewrite <- Lb, firstn_app, firstn_all, Nat.sub_diag, app_nil_r.
    apply forallb_forall. intros c Hc. rewrite Forall_forall in F. now apply alnum_ok, F.
Qed.
Section Os.
Variables (known : text -> bool) (counts : post -> result (N * N)) (png : post -> N).
Lemma first_seg p : has_first_segment p = true <-> In 1 (map fst (p_segs p)).
Proof.
  unfold has_first_segment. induction (p_segs p) as [|[q s] d IH]; cbn [get_seg map fst]; [split; [discriminate|intros []]|]. destruct (N.eqb_spec q 1) as [->|E]; [split; [now left|reflexivity]|]. rewrite IH. split; [now right|intros [?|?]; [congruence|assumption]].
Qed.
Lemma refuse1_ok p : match refuse1 known p with
  | Some (IncompleteNzb n) => n = p_name p /\ rar_ending n /\ ~ In 1 (map fst (p_segs p))
  | Some (Repack n) => n = p_name p /\ repacked known n
  | None => ~ (rar_ending (p_name p) /\ ~ In 1 (map fst (p_segs p))) /\ ~ repacked known (p_name p) end.
Proof.
  unfold refuse1, repacked. destruct (is_rar (p_name p) && negb (has_first_segment p)) eqn:A.
  { apply andb_true_iff in A as [A B]. split; [reflexivity|]. split; [now apply is_rar_spec|]. rewrite <- first_seg. destruct (has_first_segment p); discriminate. }
  assert (A' : ~ (rar_ending (p_name p) /\ ~ In 1 (map fst (p_segs p)))).
  { rewrite <- is_rar_spec, <- first_seg. intros [X Y]. rewrite X in A. destruct (has_first_segment p); [now apply Y|discriminate]. }
  destruct (known (p_name p) || contains (str "kere.ws") (p_name p)) eqn:B.
  { split; [reflexivity|]. apply orb_true_iff in B as [B|B]; [now left|right; left; now apply contains_ok]. }
  apply orb_false_iff in B as [B1 B2]. apply contains_no in B2. destruct (kere_name (p_name p)) eqn:C; [split; [reflexivity|]; right; right; now apply kere_ok|].
  split; [exact A'|]. intros [H|[H|H]]; [congruence|now apply B2|]. apply kere_ok in H. congruence.
Qed.
Lemma refuse_ok d : match refuse known d with Some r => exists k p, In (k, p) d /\ refuse1 known p = Some r | None => forall k p, In (k, p) d -> refuse1 known p = None end.
Proof.
  induction d as [|[k p] d IH]; cbn [refuse]; [intros k p []|]. destruct (refuse1 known p) as [r|] eqn:E; [exists k, p; split; [now left|exact E]|].
  destruct (refuse known d) as [r|]; [destruct IH as (k' & p' & I & H); exists k', p'; split; [now right|exact H]|]. intros k' p' [I|I]; [injection I as <- <-; exact E|now apply (IH k')].
Qed.
Local Notation bad p := (without_first p \/ repacked known (p_name p)).
Lemma prepare_refuses l : Forall one_each l ->
  ((exists r, prepare known counts png l = inl r) <-> exists n p, first_best bigger (named n l) p /\ bad p) /\
  (forall n, prepare known counts png l = inl (IncompleteNzb n) -> rar_ending n /\ exists p, first_best bigger (named n l) p /\ ~ In 1 (map fst (p_segs p))) /\
  (forall n, prepare known counts png l = inl (Repack n) -> repacked known n /\ exists p, In p l /\ p_name p = n).
Proof.
  intros O. unfold prepare. pose proof (refuse_ok (r_files (prep_all l))) as R. pose proof (files_nodup l O) as N. destruct (refuse known (r_files (prep_all l))) as [r|].
  - destruct R as (k & p & I & E). rewrite <- (get_in k p _ N) in I. apply (proj1 (files_best l k p O)) in I. destruct (best_name _ _ _ _ I) as [En Ip]. pose proof (refuse1_ok p) as X. rewrite E in X. split; [|split].
    + split; [intros _|intros _; now exists r]. exists k, p. split; [exact I|]. unfold without_first. destruct r as [n|n]; destruct X as [-> X]; [left|right]; tauto.
    + intros n H. injection H as ->. destruct X as (-> & A & B). split; [exact A|]. exists p. split; [now rewrite En|exact B].
    + intros n H. injection H as ->. destruct X as (-> & A). split; [exact A|]. now exists p.
  - split; [|split; intros n H; discriminate]. split; [intros (r & H); discriminate|]. intros (n & p & B & X). exfalso. apply (files_best l n p O) in B. apply (get_in n p _ N) in B. specialize (R n p B). pose proof (refuse1_ok p) as Y. rewrite R in Y. unfold without_first in X. tauto.
Qed.

(** ** Stored *)
Lemma picked_filter {X} (P : X -> Prop) f l : (forall x, f x = true <-> P x) -> picked P l (filter f l).
Proof.
  intros H. induction l as [|x l IH]; [constructor|]. cbn [filter]. destruct (f x) eqn:E; constructor; try exact IH; [now apply H|]. rewrite <- H. congruence.
Qed.
Definition storeb (p : post) : bool := let ext := extension (p_name p) in
  mem_text ext [str ".nfo"; str ".jpg"; str ".png"; str ".bmp"; str ".srs"] || teqb ext (str ".sfv") && contains (str "subs") (p_name p).
Definition sfvb (p : post) : bool := teqb (extension (p_name p)) (str ".sfv") && negb (contains (str "subs") (p_name p)).
Lemma lists_ok l : forall s, r_store (fold_left prep_step l s) = r_store s ++ filter storeb l /\ r_sfvs (fold_left prep_step l s) = r_sfvs s ++ filter sfvb l.
Proof.
  induction l as [|p l IH]; intros s; [cbn; now rewrite !app_nil_r|]. cbn [fold_left]. destruct (IH (prep_step s p)) as [-> ->]. unfold prep_step. cbn [r_store r_sfvs filter]. fold (storeb p). fold (sfvb p). rewrite <- !app_assoc.
  destruct (storeb p), (sfvb p); split; reflexivity.
Qed.
Lemma storeb_ok p : storeb p = true <-> to_be_stored p.
Proof.
  unfold storeb, to_be_stored. cbn [mem_text existsb]. rewrite !orb_true_iff, andb_true_iff, contains_ok, !ext_ok by reflexivity.
  split; [intros [[H|[H|[H|[H|[H|H]]]]]|H]; try tauto; discriminate|intros [H|[H|[H|[H|[H|H]]]]]; tauto].
Qed.
Lemma sfvb_ok p : sfvb p = true <-> main_sfv p.
Proof. unfold sfvb, main_sfv. rewrite andb_true_iff, negb_true_iff, contains_no, ext_ok by reflexivity. reflexivity. Qed.
Lemma dropped_ok p : dropped png p = true <-> unwanted png p.
Proof.
  unfold dropped, unwanted. rewrite !orb_true_iff, !andb_true_iff, !orb_true_iff, negb_true_iff, contains_no, !contains_ok, !ends_ok, !teqb_eq, N.ltb_lt, N.eqb_eq, bytes_size. tauto.
Qed.
Lemma stored l d st sf : prepare known counts png l = inr (d, st, sf) -> exists a b, st = a ++ b /\
  picked (fun p => to_be_stored p /\ ~ unwanted png p /\ ending ".nfo" (p_name p)) l a /\ picked (fun p => to_be_stored p /\ ~ unwanted png p /\ ~ ending ".nfo" (p_name p)) l b.
Proof.
  unfold prepare. destruct (refuse known (r_files (prep_all l))); [discriminate|]. intros H. injection H as _ <- _. destruct (lists_ok l (mkPrep [] [] [])) as [E _]. unfold prep_all. rewrite E. cbn [r_store app]. unfold order_store.
  assert (FF : forall (f g : post -> bool) m, filter f (filter g m) = filter (fun p => g p && f p) m). { clear. intros f g m. induction m as [|x m IH]; [reflexivity|]. cbn [filter]. destruct (g x); cbn [filter andb]; [destruct (f x)|]; now rewrite IH. }
  rewrite !FF. eexists _, _. split; [reflexivity|]. split; apply picked_filter; intros p; rewrite !andb_true_iff, storeb_ok, negb_true_iff.
  - rewrite ends_ok. rewrite <- (dropped_ok p). destruct (dropped png p); intuition congruence.
  - rewrite negb_true_iff. rewrite <- (dropped_ok p), <- (ends_ok ".nfo"). destruct (dropped png p), (ends ".nfo" (p_name p)); intuition congruence.
Qed.

(** ** The SFV files *)
Definition cnt (p : post) : N * N := match counts p with Ok x => x | Err _ => (0, 0) end.
Definition gts (a b : post) : bool := (fst (cnt b) <? fst (cnt a)) || (fst (cnt a) =? fst (cnt b)) && (snd (cnt b) <? snd (cnt a)).
Lemma gts_asym a b : gts a b = true -> gts b a = false.
Proof. unfold gts. lia. Qed.
Lemma gts_nt a b c : gts a b = false -> gts b c = false -> gts a c = false.
Proof. unfold gts. lia. Qed.
Local Notation countable := (UsePrepSpec.countable counts).
Lemma gts_better a b : countable a -> countable b -> better_sfv counts a b = gts a b.
Proof. intros (e & c & E) (e' & c' & E'). unfold better_sfv, gts, cnt. now rewrite E, E'. Qed.
Lemma gts_more a b : countable a -> countable b -> gts a b = true <-> more_entries counts a b.
Proof.
  intros (e & c & E) (e' & c' & E'). unfold gts, more_entries, cnt. rewrite E, E'. cbn [fst snd]. split.
  - intros H. exists e, c, e', c'. split; [reflexivity|]. split; [reflexivity|]. lia.
  - intros (x & y & x' & y' & H & H' & L). injection H as <- <-. injection H' as <- <-. lia.
Qed.
Lemma step_upd p d : (forall k q, In (k, q) d -> p_name q = k /\ countable q) -> countable p -> uniq_step counts p (map snd d) = map snd (upd gts d p).
Proof.
  intros H C. unfold upd. revert H.
  assert (X : forall d, (forall k q, In (k, q) d -> p_name q = k /\ countable q) -> forall v, match get_post (p_name p) d with Some c => if gts p c then p else c | None => p end = v ->
     uniq_step counts p (map snd d) = map snd (set_post (p_name p) v d)).
  { clear d. induction d as [|[k q] d IH]; intros H v E; cbn [get_post uniq_step map snd set_post] in *; [now subst|]. destruct (H k q (or_introl eq_refl)) as [-> Cq]. destruct (teqb k (p_name p)) eqn:T; cbn [map snd].
    - rewrite (gts_better p q C Cq). now rewrite E.
    - f_equal. apply IH; [|exact E]. intros k' q' I. apply H. now right. }
  intros H. now apply X.
Qed.
Lemma upd_names d p : (forall k q, In (k, q) d -> p_name q = k /\ countable q) -> countable p -> forall k q, In (k, q) (upd gts d p) -> p_name q = k /\ countable q.
Proof.
  intros H C k q I. unfold upd in I. assert (V : forall v, match get_post (p_name p) d with Some c => if gts p c then p else c | None => p end = v -> p_name v = p_name p /\ countable v).
  { intros v <-. destruct (get_post (p_name p) d) as [c|] eqn:G; [|auto]. destruct (gts p c); [auto|]. apply H. clear - G. induction d as [|[a b] d IHd]; [discriminate|]. cbn [get_post] in G. destruct (teqb a (p_name p)) eqn:E; [apply teqb_eq in E; injection G as ->; subst; now left|right; auto]. }
  specialize (V _ eq_refl). set (v := match get_post (p_name p) d with Some c => if gts p c then p else c | None => p end) in *. clearbody v. clear C. revert I H. induction d as [|[a b] d IHd]; cbn [set_post].
  - intros [I|[]] _. injection I as <- <-. exact V.
  - intros I H. destruct (teqb a (p_name p)) eqn:E; destruct I as [I|I].
    + injection I as <- <-. apply teqb_eq in E. subst a. exact V.
    + apply H. now right.
    + apply H. now left.
    + apply IHd; [exact I|]. intros k' q' J. apply H. now right.
Qed.
Lemma uniq_upd l : Forall countable l -> uniq counts l = map snd (fold_left (upd gts) l []) /\ forall k q, In (k, q) (fold_left (upd gts) l []) -> p_name q = k /\ countable q.
Proof.
  unfold uniq. assert (X : forall l d, Forall countable l -> (forall k q, In (k, q) d -> p_name q = k /\ countable q) ->
    fold_left (fun m s => uniq_step counts s m) l (map snd d) = map snd (fold_left (upd gts) l d) /\ forall k q, In (k, q) (fold_left (upd gts) l d) -> p_name q = k /\ countable q).
  { clear l. induction l as [|p l IH]; intros d C H; [split; [reflexivity|exact H]|]. inversion C as [|? ? Cp Cl]; subst. cbn [fold_left]. rewrite (step_upd p d H Cp). apply IH; [exact Cl|]. now apply upd_names. }
  intros C. apply (X l [] C). intros k q [].
Qed.
Lemma countable_best l n p : Forall countable l -> first_best (fun a b => gts a b = true) (named n l) p <-> first_best (more_entries counts) (named n l) p.
Proof.
  intros C. rewrite Forall_forall in C. unfold first_best. split; intros (a & b & E & A & B); exists a, b; (split; [exact E|]);
    assert (Cp : countable p) by (apply C; apply (named_in n); rewrite E; apply in_app_iff; right; now left);
    (split; intros q Hq; [assert (Cq : countable q) by (apply C; apply (named_in n); rewrite E; apply in_app_iff; now left)|assert (Cq : countable q) by (apply C; apply (named_in n); rewrite E; apply in_app_iff; right; now right)]);
    [apply gts_more; auto|rewrite <- gts_more by assumption; auto|apply gts_more; auto|rewrite gts_more by assumption; auto].
Qed.
Lemma uniq_ok l : Forall countable l -> NoDup (map p_name (uniq counts l)) /\ forall p, In p (uniq counts l) <-> first_best (more_entries counts) (named (p_name p) l) p.
Proof.
  intros C. destruct (uniq_upd l C) as [-> H]. pose proof (upd_nodup gts l [] (NoDup_nil _)) as N. set (d := fold_left (upd gts) l []) in *.
  assert (E : map p_name (map snd d) = map fst d). { rewrite map_map. apply map_ext_in. intros [k q] I. now apply H. }
  split; [now rewrite E|]. intros p. rewrite <- (countable_best l _ p C), <- (upd_best gts gts_asym gts_nt), in_map_iff. fold d. rewrite (get_in _ _ _ N). split.
  - intros ([k q] & <- & I). cbn [snd]. destruct (H k q I) as [<- _]. exact I.
  - intros I. now exists (p_name p, p).
Qed.
Lemma named_sfvs n p l : p_name p = n -> main_sfv p -> named n (filter sfvb l) = named n l.
Proof.
  intros E M. induction l as [|q l IH]; [reflexivity|]. cbn [filter]. destruct (sfvb q) eqn:S; rewrite !named_cons, IH; [reflexivity|]. destruct (text_dec (p_name q) n) as [F|F]; [|reflexivity].
  exfalso. assert (sfvb q = true); [|congruence]. apply sfvb_ok. unfold main_sfv in *. now rewrite F, <- E.
Qed.
Lemma sfvs_chosen l : (forall p, In p l -> main_sfv p -> countable p) -> NoDup (map p_name (uniq counts (filter sfvb l))) /\
  forall p, In p (uniq counts (filter sfvb l)) <-> main_sfv p /\ first_best (more_entries counts) (named (p_name p) l) p.
Proof.
  intros C. assert (C' : Forall countable (filter sfvb l)) by (apply Forall_forall; intros p I; apply filter_In in I as [I S]; apply C; [exact I|now apply sfvb_ok]).
  destruct (uniq_ok _ C') as [N U]. split; [exact N|]. intros p. rewrite U. split.
  - intros B. assert (M : main_sfv p) by (apply best_name in B as [_ B]; apply filter_In in B as [_ B]; now apply sfvb_ok). split; [exact M|]. now rewrite (named_sfvs _ p l eq_refl M) in B.
  - intros [M B]. now rewrite (named_sfvs _ p l eq_refl M).
Qed.

(** *** sorted *)
Lemma insert_post_perm p l : Permutation (insert_post p l) (p :: l).
Proof. induction l as [|q l IH]; cbn [insert_post]; [apply Permutation_refl|]. destruct (text_lt _ _); [apply Permutation_refl|]. apply (perm_trans (perm_skip q IH)). apply perm_swap. Qed.
Lemma sort_posts_perm l : Permutation (sort_posts l) l.
Proof. induction l as [|p l IH]; [constructor|]. cbn [sort_posts fold_right]. apply (perm_trans (insert_post_perm _ _)). now apply perm_skip. Qed.
Lemma insert_post_sorted p l : ~ In (p_name p) (map p_name l) -> StronglySorted by_name l -> StronglySorted by_name (insert_post p l).
Proof.
  intros I S. induction S as [|q l S IH F]; cbn [insert_post]; [repeat constructor|]. destruct (text_lt (p_name p) (p_name q)) eqn:E.
  - constructor; [now constructor|]. apply before_lt in E. constructor; [exact E|]. apply Forall_forall. intros r Hr. rewrite Forall_forall in F. specialize (F r Hr). unfold by_name in *. rewrite <- before_lt in *. now apply (text_lt_trans _ (p_name q)).
  - cbn [map] in I. constructor; [apply IH; intros H; apply I; now right|]. apply Forall_forall. intros r Hr. apply (Permutation_in _ (insert_post_perm p l)) in Hr as [<-|Hr]; [|rewrite Forall_forall in F; now apply F].
    unfold by_name. rewrite <- before_lt. destruct (SfvSortFacts.text_lt_total (p_name p) (p_name q)) as [H|H]; [|congruence|exact H]. intros H. apply I. left. now symmetry.
Qed.
Lemma sort_posts_sorted l : NoDup (map p_name l) -> StronglySorted by_name (sort_posts l).
Proof.
  induction l as [|p l IH]; intros N; [constructor|]. inversion N as [|? ? Np Nl]; subst. cbn [sort_posts fold_right]. apply insert_post_sorted; [|now apply IH]. intros H. apply Np. eapply Permutation_in; [|exact H]. apply Permutation_map. apply sort_posts_perm.
Qed.
Lemma by_name_irr p : ~ by_name p p.
Proof. unfold by_name. rewrite <- before_lt. now rewrite SfvSortFacts.text_lt_irrefl. Qed.

(** *** moved to the end *)
Lemma special_ok n : special n = true <-> extra n.
Proof.
  unfold special, extra. rewrite existsb_exists. split; intros (w & I & H); exists w; (split; [exact I|]); now apply contains_ok.
Qed.
Definition apart (l : list post) : Prop := NoDup (map p_name l) /\ distinct (fun p => In p l) /\ Forall one_each l.
Lemma apart_perm a b : Permutation a b -> apart a -> apart b.
Proof.
  intros P (N & D & O). split; [apply (Permutation_NoDup (Permutation_map _ P) N)|]. split; [intros p q Hp Hq; apply D; eapply Permutation_in; try apply Permutation_sym; eassumption|].
  rewrite Forall_forall in *. intros p Hp. apply O. eapply Permutation_in; [apply Permutation_sym|]; eassumption.
Qed.
Lemma remove_ok a p b : apart (a ++ p :: b) -> remove_post p (a ++ p :: b) = a ++ b.
Proof.
  intros (N & D & O). assert (Op : one_each p) by (rewrite Forall_forall in O; apply O, in_app_iff; right; now left).
  assert (X : forall q, In q a -> post_eq q p = false).
  { intros q Hq. destruct (post_eq q p) eqn:E; [|reflexivity]. exfalso. apply post_eq_incl in E as [I _]. destruct (D q p) as (ks & K & NK).
    - apply in_app_iff. now left.
    - apply in_app_iff. right. now left.
    - intros En. rewrite map_app in N. cbn [map] in N. apply NoDup_remove_2 in N. apply N. rewrite <- En. apply in_app_iff. left. now apply in_map.
    - now apply NK, I. }
  clear N D O. induction a as [|q a IH]; cbn [app remove_post]; [now rewrite post_eq_refl|]. rewrite (X q (or_introl eq_refl)). f_equal. apply IH. intros r Hr. apply X. now right.
Qed.
Lemma move_perm (a : list post) p b : Permutation ((a ++ b) ++ [p]) (a ++ p :: b).
Proof. rewrite <- app_assoc. apply Permutation_app_head. apply Permutation_sym, Permutation_cons_append. Qed.
Lemma to_end_perm n : forall i l, apart l -> Permutation (to_end n i l) l.
Proof.
  induction n as [|n IH]; intros i l A; [apply Permutation_refl|]. cbn [to_end]. destruct (nth_error l i) as [p|] eqn:E; [|apply Permutation_refl]. destruct (special (p_name p)); [|now apply IH].
  apply nth_error_split in E as (a & b & -> & _). rewrite (remove_ok a p b A). apply (perm_trans (IH _ _ (apart_perm _ _ (Permutation_sym (move_perm a p b)) A))). apply move_perm.
Qed.
Lemma all_extra n : forall i a e, apart (a ++ e) -> (length a <= i)%nat -> Forall (fun p => extra (p_name p)) e -> exists e', to_end n i (a ++ e) = a ++ e' /\ Permutation e' e.
Proof.
  induction n as [|n IH]; intros i a e A L F; [exists e; split; [reflexivity|apply Permutation_refl]|]. cbn [to_end]. rewrite nth_error_app2 by exact L. destruct (nth_error e (i - length a)) as [p|] eqn:E; [|exists e; split; [reflexivity|apply Permutation_refl]].
  assert (Ip := nth_error_In _ _ E). assert (Sp : special (p_name p) = true) by (apply special_ok; rewrite Forall_forall in F; now apply F). rewrite Sp. apply nth_error_split in E as (x & y & -> & _).
  rewrite app_assoc in A |- *. rewrite (remove_ok (a ++ x) p y A). rewrite <- !app_assoc. destruct (IH (S i) a (x ++ y ++ [p])) as (e' & E' & P).
  - refine (apart_perm _ _ _ A). rewrite <- app_assoc. apply Permutation_app_head. rewrite app_assoc. apply Permutation_sym, move_perm.
  - lia.
  - rewrite Forall_forall in *. intros q Hq. apply F. apply in_app_iff in Hq as [Hq|Hq]; [apply in_app_iff; now left|]. apply in_app_iff in Hq as [Hq|[<-|[]]]; apply in_app_iff; right; [now right|now left].
  - exists e'. split; [exact E'|]. apply (perm_trans P). rewrite app_assoc. apply move_perm.
Qed.
Lemma spaced_tl p l : spaced (p :: l) -> spaced l.
Proof. intros S a x y b ->. apply (S (p :: a) x y b). reflexivity. Qed.
Lemma moved rest : spaced rest -> forall n a e, apart (a ++ rest ++ e) -> (length rest + length e < n)%nat -> Forall (fun p => extra (p_name p)) e ->
  exists e', to_end n (length a) (a ++ rest ++ e) = a ++ filter (fun p => negb (special (p_name p))) rest ++ e' /\ Permutation e' (e ++ filter (fun p => special (p_name p)) rest).
Proof.
  assert (K : forall k rest, (length rest <= k)%nat -> spaced rest -> forall n a e, apart (a ++ rest ++ e) -> (length rest + length e < n)%nat -> Forall (fun p => extra (p_name p)) e ->
    exists e', to_end n (length a) (a ++ rest ++ e) = a ++ filter (fun p => negb (special (p_name p))) rest ++ e' /\ Permutation e' (e ++ filter (fun p => special (p_name p)) rest)).
  2: { intros S. now apply (K (length rest)). }
  clear rest. induction k as [|k IH]; intros rest Lk S n a e A L F.
  { destruct rest; [|cbn in Lk; lia]. cbn [filter app]. rewrite app_nil_r. apply all_extra; [exact A|apply Nat.le_refl|exact F]. }
  destruct rest as [|p rest]; [cbn [filter app]; rewrite app_nil_r; apply all_extra; [exact A|apply Nat.le_refl|exact F]|]. cbn [length] in *. destruct n as [|n]; [lia|]. cbn [to_end app filter].
  assert (Np : nth_error (a ++ p :: rest ++ e) (length a) = Some p) by (rewrite nth_error_app2, Nat.sub_diag by apply Nat.le_refl; reflexivity). rewrite Np. destruct (special (p_name p)) eqn:Sp; cbn [negb].
  - cbn [app] in A. rewrite (remove_ok a p (rest ++ e) A). assert (A' : apart (a ++ rest ++ e ++ [p])).
    { refine (apart_perm _ _ _ A). rewrite !app_assoc. rewrite <- (app_assoc a). apply Permutation_sym. apply move_perm. }
    assert (F' : Forall (fun p => extra (p_name p)) (e ++ [p])) by (apply Forall_app; split; [exact F|constructor; [now apply special_ok|constructor]]).
    rewrite <- !app_assoc. destruct rest as [|q rest].
    + cbn [app filter]. destruct (all_extra n (Datatypes.S (length a)) a (e ++ [p]) A' ltac:(lia) F') as (e' & E & P). exists e'. split; [exact E|exact P].
    + assert (Sq : special (p_name q) = false). { destruct (special (p_name q)) eqn:Z; [|reflexivity]. exfalso. apply (S [] p q rest eq_refl); now apply special_ok. }
      cbn [filter]. rewrite Sq. cbn [negb app]. destruct (IH rest) with (n := n) (a := a ++ [q]) (e := e ++ [p]) as (e' & E & P).
      * cbn in Lk. lia.
      * now apply spaced_tl, spaced_tl in S.
      * rewrite <- app_assoc. exact A'.
      * cbn [length] in L. rewrite app_length. cbn [length]. lia.
      * exact F'.
      * rewrite app_length in E. cbn [length] in E. rewrite Nat.add_1_r in E. rewrite <- !app_assoc in E. cbn [app] in E. exists e'. split; [exact E|]. rewrite <- app_assoc in P. exact P.
  - cbn [app]. destruct (IH rest) with (n := n) (a := a ++ [p]) (e := e) as (e' & E & P).
    + lia.
    + now apply spaced_tl in S.
    + rewrite <- app_assoc. exact A.
    + lia.
    + exact F.
    + rewrite app_length in E. cbn [length] in E. rewrite Nat.add_1_r in E. rewrite <- !app_assoc in E. cbn [app] in E. exists e'. split; [exact E|exact P].
Qed.
Local Notation input_ok := (UsePrepSpec.input_ok counts).
Lemma chosen_apart l : input_ok l -> apart (sort_posts (uniq counts (filter sfvb l))).
Proof.
  intros (O & C & D). destruct (sfvs_chosen l C) as [N U]. apply (apart_perm _ _ (Permutation_sym (sort_posts_perm _))). split; [exact N|].
  assert (I : forall p, In p (uniq counts (filter sfvb l)) -> In p l /\ main_sfv p) by (intros p H; apply U in H as [M B]; apply best_name in B; tauto).
  split; [intros p q Hp Hq; apply D; auto|]. apply Forall_forall. intros p Hp. rewrite Forall_forall in O. now apply O, I.
Qed.
Lemma prepare_sfvs l d st sf : prepare known counts png l = inr (d, st, sf) -> sf = order_sfvs (sort_posts (uniq counts (filter sfvb l))).
Proof.
  unfold prepare. destruct (refuse known (r_files (prep_all l))); [discriminate|]. intros H. injection H as _ _ <-. destruct (lists_ok l (mkPrep [] [] [])) as [_ E]. unfold prep_all. rewrite E. reflexivity.
Qed.
Lemma sfvs_final l d st sf : input_ok l -> prepare known counts png l = inr (d, st, sf) ->
  NoDup (map p_name sf) /\ forall p, In p sf <-> main_sfv p /\ first_best (more_entries counts) (named (p_name p) l) p.
Proof.
  intros I H. rewrite (prepare_sfvs _ _ _ _ H). pose proof (chosen_apart l I) as A. unfold order_sfvs. pose proof (perm_trans (to_end_perm (S (length (sort_posts (uniq counts (filter sfvb l))))) 0 _ A) (sort_posts_perm _)) as P. destruct I as (O & C & D). destruct (sfvs_chosen l C) as [N U]. split.
  - eapply Permutation_NoDup; [|exact N]. apply Permutation_map, Permutation_sym, P.
  - intros p. rewrite <- U. split; apply Permutation_in; [exact P|apply Permutation_sym, P].
Qed.
Lemma sorted_unique (s t : list post) : StronglySorted by_name s -> StronglySorted by_name t -> (forall p, In p s <-> In p t) -> s = t.
Proof.
  intros S. revert t. induction S as [|p s S IH F]; intros t T I.
  - destruct t as [|q t]; [reflexivity|]. destruct (proj2 (I q) (or_introl eq_refl)).
  - destruct t as [|q t]; [destruct (proj1 (I p) (or_introl eq_refl))|]. inversion T as [|? ? T' G]; subst. rewrite Forall_forall in F, G.
    assert (tr : forall x y, by_name x y -> by_name y x -> False) by (intros x y X Y; unfold by_name in *; rewrite <- before_lt in *; rewrite (SfvSortFacts.text_lt_asym _ _ X) in Y; discriminate).
    assert (E : p = q).
    { destruct (proj1 (I p) (or_introl eq_refl)) as [E|E]; [now symmetry|]. destruct (proj2 (I q) (or_introl eq_refl)) as [E'|E']; [exact E'|]. exfalso. exact (tr p q (F q E') (G p E)). }
    subst q. f_equal. apply IH; [exact T'|]. intros x. split; intros X.
    + destruct (proj1 (I x) (or_intror X)) as [E|E]; [subst x; exfalso; exact (by_name_irr p (F p X))|exact E].
    + destruct (proj2 (I x) (or_intror X)) as [E|E]; [subst x; exfalso; exact (by_name_irr p (G p X))|exact E].
Qed.
Lemma filter_sorted (f : post -> bool) l : StronglySorted by_name l -> StronglySorted by_name (filter f l).
Proof.
  induction 1 as [|p l S IH F]; [constructor|]. cbn [filter]. destruct (f p); [|exact IH]. constructor; [exact IH|]. rewrite Forall_forall in *. intros q Hq. apply F. now apply filter_in in Hq.
Qed.
Lemma ended l d st sf s : input_ok l -> prepare known counts png l = inr (d, st, sf) -> StronglySorted by_name s ->
  (forall p, In p s <-> main_sfv p /\ first_best (more_entries counts) (named (p_name p) l) p) -> spaced s ->
  exists a e, sf = a ++ e /\ Permutation sf s /\ StronglySorted by_name a /\ Forall (fun p => ~ extra (p_name p)) a /\ Forall (fun p => extra (p_name p)) e.
Proof.
  intros I H S Is Sp. rewrite (prepare_sfvs _ _ _ _ H). pose proof (chosen_apart l I) as A. assert (E : sort_posts (uniq counts (filter sfvb l)) = s).
  { destruct I as (O & C & D). destruct (sfvs_chosen l C) as [N U]. apply sorted_unique; [now apply sort_posts_sorted|exact S|]. intros p. rewrite Is, <- U. split; apply Permutation_in; [|apply Permutation_sym]; apply sort_posts_perm. }
  rewrite E in *. pose proof (to_end_perm (Datatypes.S (length s)) 0 s A) as P. unfold order_sfvs. destruct (moved s Sp (Datatypes.S (length s)) [] []) as (e & Ee & Pe); rewrite ?app_nil_r; cbn [app length]; [exact A|lia|constructor|].
  cbn [app length] in Ee. rewrite app_nil_r in Ee. exists (filter (fun p => negb (special (p_name p))) s), e. split; [exact Ee|]. split; [exact P|]. split; [now apply filter_sorted|]. split.
  - apply Forall_forall. intros p Hp. apply filter_In in Hp as [_ Hp]. rewrite <- special_ok. destruct (special (p_name p)); [discriminate|congruence].
  - apply Forall_forall. intros p Hp. apply (Permutation_in _ Pe) in Hp. cbn [app] in Hp. apply filter_In in Hp as [_ Hp]. now apply special_ok.
Qed.
Lemma prepare_best l d st sf n p : Forall one_each l -> prepare known counts png l = inr (d, st, sf) -> get_post n d = Some p <-> first_best bigger (named n l) p.
Proof.
  unfold prepare. destruct (refuse known (r_files (prep_all l))); [discriminate|]. intros O H. injection H as <- _ _. now apply files_best.
Qed.
Lemma prepare_dict l d st sf n p : Forall one_each l -> prepare known counts png l = inr (d, st, sf) -> In (n, p) d <-> get_post n d = Some p.
Proof.
  unfold prepare. destruct (refuse known (r_files (prep_all l))); [discriminate|]. intros O H. injection H as <- _ _. symmetry. apply get_in. now apply files_nodup.
Qed.
End Os.

(** ** Names *)
Lemma find_first (f : nat -> bool) n i : (i < n)%nat -> f i = true -> (forall j, (j < i)%nat -> f j = false) -> find f (seq 0 n) = Some i.
Proof.
  intros L F B. replace n with (i + S (n - S i))%nat by lia. rewrite seq_app. cbn [seq]. rewrite Nat.add_0_l.
  assert (X : forall l r, (forall j, In j l -> f j = false) -> find f (l ++ i :: r) = Some i). { induction l as [|x l IH]; intros r H; cbn [app find]; [now rewrite F|]. rewrite (H x (or_introl eq_refl)). apply IH. intros j Hj. apply H. now right. }
  apply X. intros j Hj. apply in_seq in Hj. apply B. lia.
Qed.
Lemma last_last (f : nat -> bool) n i : (i < n)%nat -> f i = true -> (forall j, (i < j < n)%nat -> f j = false) -> last_pos f n = Some i.
Proof.
  intros L F B. unfold last_pos. replace n with (i + S (n - S i))%nat at 1 by lia. rewrite seq_app. cbn [seq]. rewrite Nat.add_0_l, rev_app_distr. cbn [rev]. rewrite <- app_assoc. cbn [app].
  assert (X : forall l r, (forall j, In j l -> f j = false) -> find f (l ++ i :: r) = Some i). { induction l as [|x l IH]; intros r H; cbn [app find]; [now rewrite F|]. rewrite (H x (or_introl eq_refl)). apply IH. intros j Hj. apply H. now right. }
  apply X. intros j Hj. apply in_rev, in_seq in Hj. apply B. lia.
Qed.
Lemma lstrip_no c t : ~ In c t -> lstrip c t = t.
Proof. destruct t as [|x t]; [reflexivity|]. intros H. cbn [lstrip]. destruct (N.eqb_spec x c) as [->|]; [exfalso; apply H; now left|reflexivity]. Qed.
Lemma char_no (t : text) c i : c <> 0 -> ~ In c t -> (char_at t i =? c) = false.
Proof.
  intros Z H. unfold char_at. destruct (Nat.lt_ge_cases i (length t)) as [L|L]; [|rewrite nth_overflow by exact L; apply N.eqb_neq; congruence]. apply N.eqb_neq. intros E. apply H. rewrite <- E. now apply nth_In.
Qed.
Lemma name_quoted a n b : ~ In QUOTE a -> ~ In QUOTE n -> ~ In QUOTE b -> parse_name (a ++ QUOTE :: n ++ QUOTE :: b) = n.
Proof.
  intros A B C. unfold parse_name. set (t := a ++ QUOTE :: n ++ QUOTE :: b). assert (L : (length t = length a + S (length n + S (length b)))%nat) by (unfold t; rewrite app_length; cbn [length]; now rewrite app_length).
  assert (Ca : forall j, char_at t j = if Nat.ltb j (length a) then char_at a j else char_at (QUOTE :: n ++ QUOTE :: b) (j - length a)).
  { intros j. unfold char_at, t. destruct (Nat.ltb_spec j (length a)) as [X|X]; [now rewrite app_nth1|now rewrite app_nth2]. }
  assert (Q : QUOTE <> 0) by discriminate.
  rewrite (find_first _ (length t) (length a)); [|lia| |].
  2: { rewrite Ca. rewrite Nat.ltb_irrefl, Nat.sub_diag. reflexivity. }
  2: { intros j Hj. rewrite Ca. destruct (Nat.ltb_spec j (length a)); [now apply char_no|lia]. }
  rewrite (last_last _ (length t) (length a + S (length n))); [|lia| |].
  2: { rewrite Ca. destruct (Nat.ltb_spec (length a + S (length n)) (length a)); [lia|]. replace (length a + S (length n) - length a)%nat with (S (length n)) by lia. unfold char_at. cbn [nth]. rewrite app_nth2, Nat.sub_diag by apply Nat.le_refl. reflexivity. }
  2: { intros j Hj. rewrite Ca. destruct (Nat.ltb_spec j (length a)); [lia|]. replace (j - length a)%nat with (S (length n + S (j - length a - length n - 2))) by lia. unfold char_at. cbn [nth]. rewrite app_nth2 by lia. replace (length n + S (j - length a - length n - 2) - length n)%nat with (S (j - length a - length n - 2)) by lia. cbn [nth]. now apply (char_no b). }
  destruct (Nat.ltb_spec (length a) (length a + S (length n))); [|lia]. replace (length a + S (length n) - S (length a))%nat with (length n) by lia. unfold t.
  replace (S (length a)) with (length a + 1)%nat by lia. rewrite skipn_app, skipn_all2 by lia. replace (length a + 1 - length a)%nat with 1%nat by lia. cbn [app skipn]. rewrite firstn_app, firstn_all, Nat.sub_diag. cbn [firstn]. rewrite app_nil_r. unfold strip. rewrite (lstrip_no _ n B), lstrip_no; [apply rev_involutive|]. now rewrite <- in_rev.
Qed.
