(** ODictFacts: the linked list of an ordered dictionary is the list of its keys in order. *)
From Coq Require Import Permutation.
From Verif Require Import Base BaseFacts SrrFacts ODict ODictSpec.

(** ** Neighbours in a list *)
Definition pairs {A} (l : list A) : list (A * A) := combine l (tl l).
Lemma pairs_cons {A} (x y : A) l : pairs (x :: y :: l) = (x, y) :: pairs (y :: l).
Proof. reflexivity. Qed.
Lemma pairs_mid {A} (l : list A) x y r : pairs (l ++ x :: y :: r) = pairs (l ++ [x]) ++ (x, y) :: pairs (y :: r).
Proof.
  induction l as [|a l IH]; [reflexivity|]. destruct l as [|b l]; [reflexivity|]. cbn [app] in *. rewrite !pairs_cons, IH. reflexivity.
Qed.
Lemma in_pairs {A} (l : list A) u v : In (u, v) (pairs l) <-> exists a b, l = a ++ u :: v :: b.
Proof.
  split.
  - induction l as [|x l IH]; [intros []|]. destruct l as [|y l]; [intros []|]. rewrite pairs_cons. intros [H|H]; [injection H as <- <-; now exists [], l|]. destruct (IH H) as (a & b & ->). now exists (x :: a), b.
  - intros (a & b & ->). rewrite pairs_mid. apply in_or_app. right. now left.
Qed.
Lemma in_pairs_snoc {A} (l : list A) x u v : In (u, v) (pairs (l ++ [x])) -> In u l.
Proof.
  intros H. apply in_pairs in H as (a & b & E). destruct (exists_last (l := u :: v :: b)) as (r & z & R); [discriminate|]. rewrite R, app_assoc in E. apply app_inj_tail in E as [-> _].
  destruct r as [|w r]; [destruct b; discriminate R|]. injection R as <- _. apply in_or_app. right. now left.
Qed.
Lemma in_pairs_cons {A} (l : list A) x u v : In (u, v) (pairs (x :: l)) -> In v l.
Proof.
  intros H. apply in_pairs in H as ([|w a] & b & E); injection E as -> ->; [now left|]. apply in_or_app. right. right. now left.
Qed.
Lemma in_pairs_rev {A} (l : list A) u v : In (u, v) (pairs (rev l)) -> In (v, u) (pairs l).
Proof.
  intros H. apply in_pairs in H as (a & b & E). apply in_pairs. exists (rev b), (rev a). rewrite <- (rev_involutive l), E. rewrite rev_app_distr. cbn [rev]. now rewrite <- !app_assoc.
Qed.

Section Dict.
Context {K V : Type}.
Variable keqb : K -> K -> bool.
Hypothesis Hk : decides keqb.
Variable dec : forall a b : K, {a = b} + {a <> b}.
Lemma keq a b : keqb a b = if dec a b then true else false.
Proof using Hk. destruct (dec a b) as [E|E]; [now apply Hk|]. apply not_true_iff_false. intros H. now apply Hk in H. Qed.

(** ** dict *)
Lemma get_del {W} (d : list (K * W)) k k' : d_get keqb (d_del keqb d k) k' = if dec k k' then None else d_get keqb d k'.
Proof using Hk.
  induction d as [|[a w] d IH]; cbn [d_get d_del]; [now destruct (dec k k')|]. rewrite (keq a k). destruct (dec a k) as [->|Ne]; [rewrite IH, keq; now destruct (dec k k')|].
  cbn [d_get]. rewrite IH, keq. destruct (dec a k') as [->|]; [|reflexivity]. now destruct (dec k k') as [->|].
Qed.
Lemma get_set {W} (d : list (K * W)) k w k' : d_get keqb (d_set keqb d k w) k' = if dec k k' then Some w else d_get keqb d k'.
Proof using Hk. unfold d_set. cbn [d_get]. rewrite keq, get_del. now destruct (dec k k'). Qed.
Lemma del_filter {W} (d : list (K * W)) k : d_del keqb d k = filter (fun p => if dec (fst p) k then false else true) d.
Proof using Hk. induction d as [|[a w] d IH]; [reflexivity|]. cbn [d_del filter fst]. rewrite keq, IH. now destruct (dec a k). Qed.
Lemma get_assoc (d : list (K * V)) k : d_get keqb d k = assoc dec d k.
Proof using Hk. unfold assoc. induction d as [|[a w] d IH]; [reflexivity|]. cbn [d_get find fst]. rewrite keq. destruct (dec a k); [reflexivity|exact IH]. Qed.
Lemma assoc_in (l : list (K * V)) k v : NoDup (map fst l) -> (assoc dec l k = Some v <-> In (k, v) l).
Proof.
  unfold assoc. induction l as [|[a w] l IH]; [split; [discriminate|intros []]|]. cbn [map find fst]. intros N0. apply NoDup_cons_iff in N0 as [Na Nl]. destruct (dec a k) as [->|Ne].
  - cbn [option_map snd]. split; [intros H; injection H as ->; now left|]. intros [H|H]; [now injection H as ->|]. exfalso. apply Na. apply in_map_iff. now exists (k, v).
  - rewrite (IH Nl). split; [now right|]. intros [H|H]; [|exact H]. injection H as -> ->. now destruct Ne.
Qed.
Lemma assoc_none (l : list (K * V)) k : assoc dec l k = None <-> ~ In k (map fst l).
Proof.
  unfold assoc. induction l as [|[a w] l IH]; [split; [intros _ []|reflexivity]|]. cbn [map find fst In]. destruct (dec a k) as [->|Ne]; [split; [discriminate|intros H; now destruct H; left]|]. rewrite IH. tauto.
Qed.
Lemma assoc_perm (l m : list (K * V)) k : Permutation l m -> NoDup (map fst l) -> assoc dec l k = assoc dec m k.
Proof.
  intros P N1. assert (N2 : NoDup (map fst m)) by (eapply Permutation_NoDup; [apply Permutation_map, P|exact N1]).
  destruct (assoc dec m k) as [v|] eqn:E.
  - apply assoc_in in E; [|exact N2]. apply assoc_in; [exact N1|]. eapply Permutation_in; [symmetry; exact P|exact E].
  - apply assoc_none in E. apply assoc_none. intros H. apply E. eapply Permutation_in; [apply Permutation_map, P|exact H].
Qed.
Lemma filter_perm {A} (f : A -> bool) l m : Permutation l m -> Permutation (filter f l) (filter f m).
Proof.
  induction 1 as [|x l m _ IH|x y l|l m n _ IH1 _ IH2]; cbn [filter]; [constructor| | |now transitivity (filter f m)].
  - destruct (f x); [now constructor|exact IH].
  - destruct (f x), (f y); try reflexivity. constructor.
Qed.
Lemma split_at (l : list (K * V)) k v : assoc dec l k = Some v -> NoDup (map fst l) -> exists a b, l = a ++ (k, v) :: b /\ ~ In k (map fst a) /\ ~ In k (map fst b).
Proof.
  intros H N0. apply assoc_in in H; [|exact N0]. apply in_split in H as (a & b & ->). exists a, b. split; [reflexivity|]. rewrite map_app in N0. cbn [map fst] in N0. apply NoDup_remove_2 in N0. split; intros X; apply N0, in_or_app; tauto.
Qed.
Lemma without_none (l : list (K * V)) k : ~ In k (map fst l) -> without dec l k = l.
Proof.
  unfold without. induction l as [|[a w] l IH]; [reflexivity|]. cbn [map In filter fst]. intros H. destruct (dec a k) as [->|]; [tauto|]. now rewrite IH by tauto.
Qed.
Lemma without_split (a b : list (K * V)) k v : ~ In k (map fst a) -> ~ In k (map fst b) -> without dec (a ++ (k, v) :: b) k = a ++ b.
Proof.
  intros Ha Hb. unfold without. rewrite filter_app. cbn [filter fst]. destruct (dec k k); [|tauto]. f_equal; now apply without_none.
Qed.
Lemma with_split (a b : list (K * V)) k v w : ~ In k (map fst a) -> ~ In k (map fst b) -> with_value dec (a ++ (k, v) :: b) k w = a ++ (k, w) :: b.
Proof.
  intros Ha Hb. unfold with_value. destruct (assoc dec (a ++ (k, v) :: b) k) eqn:E.
  - assert (X : forall l : list (K * V), ~ In k (map fst l) -> map (fun p => if dec (fst p) k then (k, w) else p) l = l).
    { induction l as [|[c u] l IH]; [reflexivity|]. cbn [map In fst]. intros H. destruct (dec c k) as [->|]; [tauto|]. now rewrite IH by tauto. }
    rewrite map_app. cbn [map fst]. destruct (dec k k); [|tauto]. now rewrite !X.
  - exfalso. apply assoc_none in E. apply E. rewrite map_app. apply in_or_app. right. now left.
Qed.

(** ** The linked list *)
Definition links (h : heap (K := K)) (l : list N) : Prop := forall u v, In (u, v) (pairs l) -> n_next (h u) = v /\ n_prev (h v) = u.
Definition ring (e : N) (l : list N) : list N := e :: l ++ [e].
Lemma put_same (h : heap (K := K)) a n : put h a n a = n.
Proof. unfold put. now rewrite N.eqb_refl. Qed.
Lemma put_other (h : heap (K := K)) a n b : b <> a -> put h a n b = h b.
Proof. unfold put. intros H. now replace (b =? a) with false by lia. Qed.
Lemma next_next (h : heap (K := K)) a x b : n_next (set_next h a x b) = if b =? a then x else n_next (h b).
Proof. unfold set_next, put. now destruct (b =? a). Qed.
Lemma next_prev (h : heap (K := K)) a x b : n_prev (set_next h a x b) = n_prev (h b).
Proof. unfold set_next, put. destruct (N.eqb_spec b a) as [->|]; reflexivity. Qed.
Lemma next_key (h : heap (K := K)) a x b : n_key (set_next h a x b) = n_key (h b).
Proof. unfold set_next, put. destruct (N.eqb_spec b a) as [->|]; reflexivity. Qed.
Lemma prev_prev (h : heap (K := K)) a x b : n_prev (set_prev h a x b) = if b =? a then x else n_prev (h b).
Proof. unfold set_prev, put. now destruct (b =? a). Qed.
Lemma prev_next (h : heap (K := K)) a x b : n_next (set_prev h a x b) = n_next (h b).
Proof. unfold set_prev, put. destruct (N.eqb_spec b a) as [->|]; reflexivity. Qed.
Lemma prev_key (h : heap (K := K)) a x b : n_key (set_prev h a x b) = n_key (h b).
Proof. unfold set_prev, put. destruct (N.eqb_spec b a) as [->|]; reflexivity. Qed.
Lemma last_link e l : exists a x, e :: l = a ++ [x] /\ forall h, links h (ring e l) -> n_prev (h e) = x.
Proof.
  destruct (exists_last (l := e :: l)) as (a & x & E); [discriminate|]. exists a, x. split; [exact E|]. intros h L. apply (L x e). apply in_pairs. exists a, []. unfold ring. change (e :: l ++ [e]) with ((e :: l) ++ [e]). rewrite E, <- app_assoc. reflexivity.
Qed.
Lemma insert_links h e l n k x a : links h (ring e l) -> NoDup (e :: l) -> ~ In n (e :: l) -> e :: l = a ++ [x] ->
  links (set_prev (set_next (put h n (mkNode k x e)) x n) e n) (ring e (l ++ [n])).
Proof.
  intros L ND Hn E. unfold links. assert (R : ring e (l ++ [n]) = a ++ x :: n :: [e]).
  { unfold ring. rewrite <- app_assoc. change (e :: l ++ [n] ++ [e]) with ((e :: l) ++ [n; e]). rewrite E, <- app_assoc. reflexivity. }
  rewrite R, pairs_mid. assert (Nx : n <> x) by (intros ->; apply Hn; rewrite E; apply in_or_app; right; now left). assert (Ne : n <> e) by (intros ->; apply Hn; now left).
  intros u v H. rewrite prev_next, next_next, prev_prev, next_prev. apply in_app_or in H as [H|[H|[H|[]]]].
  - assert (Iu := in_pairs_snoc _ _ _ _ H). assert (Iv : In v l) by (rewrite <- E in H; now apply in_pairs_cons in H). assert (ND' := ND). rewrite E in ND'. apply NoDup_remove_2 in ND'. rewrite app_nil_r in ND'.
    assert (Iu2 : In u (e :: l)) by (rewrite E; apply in_or_app; now left).
    replace (u =? x) with false by (symmetry; apply N.eqb_neq; intros ->; contradiction). replace (v =? e) with false by (symmetry; apply N.eqb_neq; intros ->; apply NoDup_cons_iff in ND; tauto).
    rewrite !put_other by (intros ->; apply Hn; (exact Iu2 || (right; exact Iv))). apply L. unfold ring. apply in_pairs in H as (p & q & Q). apply in_pairs. exists p, (q ++ [e]). change (e :: l ++ [e]) with ((e :: l) ++ [e]). rewrite E, Q, <- app_assoc. reflexivity.
  - injection H as <- <-. rewrite N.eqb_refl. replace (n =? e) with false by lia. split; [reflexivity|]. now rewrite put_same.
  - injection H as <- <-. rewrite N.eqb_refl. replace (n =? x) with false by lia. split; [|reflexivity]. now rewrite put_same.
Qed.
Lemma delete_links h e p a q : links h (ring e (p ++ a :: q)) -> NoDup (e :: p ++ a :: q) ->
  links (set_prev (set_next h (n_prev (h a)) (n_next (h a))) (n_next (h a)) (n_prev (h a))) (ring e (p ++ q)).
Proof.
  intros L ND. destruct (exists_last (l := e :: p)) as (b & x & Eb); [discriminate|]. destruct (q ++ [e]) as [|y c] eqn:Ec; [now destruct q|].
  assert (R : ring e (p ++ a :: q) = b ++ x :: a :: y :: c).
  { unfold ring. change (e :: (p ++ a :: q) ++ [e]) with ((e :: p ++ a :: q) ++ [e]). change (e :: p ++ a :: q) with ((e :: p) ++ a :: q). rewrite Eb, <- !app_assoc. cbn [app]. now rewrite Ec. }
  assert (R' : ring e (p ++ q) = b ++ x :: y :: c).
  { unfold ring. change (e :: (p ++ q) ++ [e]) with (((e :: p) ++ q) ++ [e]). rewrite Eb, <- !app_assoc. cbn [app]. now rewrite Ec. }
  assert (Px : n_prev (h a) = x) by (apply (L x a); rewrite R; apply in_pairs; now exists b, (y :: c)).
  assert (Py : n_next (h a) = y) by (apply (L a y); rewrite R; apply in_pairs; exists (b ++ [x]), c; now rewrite <- app_assoc).
  rewrite Px, Py. unfold links. rewrite R', pairs_mid. intros u v H. rewrite prev_next, next_next, prev_prev, next_prev.
  assert (ND1 : NoDup (e :: p ++ q)) by (change (e :: p ++ a :: q) with ((e :: p) ++ a :: q) in ND; now apply NoDup_remove_1 in ND).
  assert (ND2 : NoDup (p ++ y :: c)).
  { rewrite <- Ec, app_assoc. apply NoDup_cons_iff in ND1 as [X Y]. apply (Permutation_NoDup (l := e :: p ++ q)); [apply Permutation_cons_append|]. now constructor. }
  assert (Keep : forall s t, In (s, t) (pairs (ring e (p ++ a :: q))) -> s <> x -> t <> y -> (if s =? x then y else n_next (h s)) = t /\ (if t =? y then x else n_prev (h t)) = s).
  { intros s t Hs Ns Nt. replace (s =? x) with false by lia. replace (t =? y) with false by lia. now apply L. }
  apply in_app_or in H as [H|[H|H]].
  - assert (Iu := in_pairs_snoc _ _ _ _ H). assert (H' := H). rewrite <- Eb in H'. assert (Iv := in_pairs_cons _ _ _ _ H'). apply Keep.
    + rewrite R, pairs_mid. apply in_or_app. now left.
    + intros ->. change (e :: p ++ q) with ((e :: p) ++ q) in ND1. rewrite Eb, <- app_assoc in ND1. apply NoDup_remove_2 in ND1. apply ND1, in_or_app. now left.
    + intros ->. apply NoDup_remove_2 in ND2. apply ND2, in_or_app. now left.
  - injection H as <- <-. now rewrite !N.eqb_refl.
  - assert (Iv := in_pairs_cons _ _ _ _ H). assert (Iu : In u q) by (rewrite <- Ec in H; now apply in_pairs_snoc in H). apply Keep.
    + rewrite R. change (b ++ x :: a :: y :: c) with (b ++ [x] ++ a :: y :: c). rewrite app_assoc, pairs_mid. apply in_or_app. right. now right.
    + intros ->. assert (X : In x (e :: p)) by (rewrite Eb; apply in_or_app; right; now left). destruct X as [->|X]; [apply NoDup_cons_iff in ND1 as [Z _]; apply Z, in_or_app; now right|].
      apply NoDup_cons_iff in ND1 as [_ ND1]. apply in_split in X as (p1 & p2 & ->). rewrite <- app_assoc in ND1. cbn [app] in ND1. apply NoDup_remove_2 in ND1. apply ND1. rewrite in_app_iff, in_app_iff. tauto.
    + intros ->. apply NoDup_remove_2 in ND2. apply ND2, in_or_app. now right.
Qed.
Lemma walk_ok step (h : heap (K := K)) e ks : forall l c fuel, (forall u v, In (u, v) (pairs (c :: l ++ [e])) -> step (h u) = v) -> Forall2 (fun a k => n_key (h a) = Some k) l ks -> ~ In e l -> (length l < fuel)%nat ->
  o_walk fuel step h e (step (h c)) = Ok ks.
Proof.
  induction ks as [|k ks IH]; intros l c fuel Hs F Ne Hf; inversion F as [|a k' l' ks' Ha F']; subst.
  - destruct fuel as [|fuel]; [lia|]. cbn [o_walk]. rewrite (Hs c e) by now left. now rewrite N.eqb_refl.
  - destruct fuel as [|fuel]; [lia|]. cbn [o_walk]. rewrite (Hs c a) by now left. replace (a =? e) with false by (symmetry; apply N.eqb_neq; intros ->; apply Ne; now left).
    rewrite (IH l' a fuel); [cbn [bind]; now rewrite Ha| |exact F'|intros X; apply Ne; now right|cbn [length] in Hf; lia]. intros u v H. apply Hs. cbn [app]. rewrite pairs_cons. now right.
Qed.

(** ** The state and the list *)
Definition is_node (s : odict K V) (a : N) (p : K * V) : Prop := n_key (o_heap s a) = Some (fst p) /\ d_get keqb (o_map s) (fst p) = Some a.
Record stands (s : odict K V) (l : list (K * V)) (L : list N) : Prop := {
  st_links : links (o_heap s) (ring (o_end s) L);
  st_nodup : NoDup (o_end s :: L);
  st_free : Forall (fun a => a < o_free s) (o_end s :: L);
  st_nodes : Forall2 (is_node s) L l;
  st_keys : NoDup (map fst l);
  st_dict : Permutation (o_dict s) l }.
Definition rel (s : odict K V) (l : list (K * V)) : Prop := exists L, stands s l L.
Lemma rel_get s l k : rel s l -> d_get keqb (o_dict s) k = assoc dec l k.
Proof using Hk.
  intros [L H]. rewrite get_assoc. apply assoc_perm; [apply H|]. eapply Permutation_NoDup; [apply Permutation_map; symmetry; apply H|apply H].
Qed.
Lemma rel_len s l : rel s l -> length (o_dict s) = length l.
Proof. intros [L H]. apply Permutation_length, H. Qed.
Lemma clear_rel s : rel (o_clear s) [].
Proof.
  exists []. split; cbn [o_clear o_heap o_end o_free o_dict map]; try constructor; try constructor.
  - destruct H as [H|[]]. injection H as <- <-. now rewrite put_same.
  - destruct H as [H|[]]. injection H as <- <-. now rewrite put_same.
  - intros [].
  - lia.
Qed.
Lemma Forall2_impl_in {A B} (P Q : A -> B -> Prop) l m : (forall a b, In a l -> In b m -> P a b -> Q a b) -> Forall2 P l m -> Forall2 Q l m.
Proof.
  intros H F. induction F as [|a b l m Hab F IH]; [constructor|]. constructor; [apply H; [now left|now left|exact Hab]|]. apply IH. intros x y Hx Hy. apply H; now right.
Qed.
Lemma set_rel s l k v : rel s l -> rel (o_set keqb s k v) (with_value dec l k v).
Proof using Hk.
  intros R. assert (G := rel_get s l k R). destruct R as [L [S1 S2 S3 S4 S5 S6]]. unfold o_set. rewrite G. destruct (assoc dec l k) as [w|] eqn:E.
  - destruct (split_at l k w E S5) as (a & b & -> & Ha & Hb). rewrite with_split by assumption. exists L. split; cbn [o_heap o_end o_free o_dict o_map]; try assumption.
    + clear - S4. apply Forall2_app_inv_r in S4 as (x & y & F1 & F2 & ->). inversion F2 as [|n p y' b' Hn F3]; subst. apply Forall2_app; [exact F1|]. constructor; [exact Hn|exact F3].
    + rewrite map_app in *. exact S5.
    + unfold d_set. rewrite del_filter. apply filter_perm with (f := fun p => if dec (fst p) k then false else true) in S6.
      change (filter _ (a ++ (k, w) :: b)) with (without dec (a ++ (k, w) :: b) k) in S6. rewrite without_split in S6 by assumption. rewrite S6. apply Permutation_middle.
  - unfold with_value. rewrite E. apply assoc_none in E. destruct (last_link (o_end s) L) as (a & x & Ea & Hx). rewrite (Hx _ S1).
    assert (Fr : ~ In (o_free s) (o_end s :: L)). { intros H. rewrite Forall_forall in S3. specialize (S3 _ H). lia. }
    exists (L ++ [o_free s]). split; cbn [o_heap o_end o_free o_dict o_map].
    + apply insert_links with (a := a); assumption.
    + change (o_end s :: L ++ [o_free s]) with ((o_end s :: L) ++ [o_free s]). apply (Permutation_NoDup (l := o_free s :: o_end s :: L)); [apply Permutation_cons_append|]. now constructor.
    + change (o_end s :: L ++ [o_free s]) with ((o_end s :: L) ++ [o_free s]). apply Forall_app. split; [|constructor; [lia|constructor]]. eapply Forall_impl; [|exact S3]. cbn. lia.
    + apply Forall2_app.
      * eapply Forall2_impl_in; [|exact S4]. intros n p Hn Hp [K1 K2]. unfold is_node. cbn [o_heap o_map]. rewrite prev_key, next_key, put_other, get_set by (intros ->; apply Fr; now right). split; [exact K1|].
        destruct (dec k (fst p)) as [->|]; [|exact K2]. destruct E. now apply in_map.
      * constructor; [|constructor]. unfold is_node. cbn [o_heap o_map fst]. rewrite prev_key, next_key, put_same, get_set. now destruct (dec k k).
    + rewrite map_app. cbn [map fst]. apply (Permutation_NoDup (l := k :: map fst l)); [apply Permutation_cons_append|]. now constructor.
    + unfold d_set. rewrite del_filter. change (filter _ (o_dict s)) with (without dec (o_dict s) k). rewrite without_none; [rewrite S6; apply Permutation_cons_append|]. intros X. apply E. eapply Permutation_in; [apply Permutation_map, S6|exact X].
Qed.
Lemma del_rel s l k v : rel s l -> assoc dec l k = Some v -> exists s', o_del keqb s k = Ok s' /\ rel s' (without dec l k).
Proof using Hk.
  intros R E. assert (G := rel_get s l k R). destruct R as [L [S1 S2 S3 S4 S5 S6]]. unfold o_del. rewrite G, E. destruct (split_at l k v E S5) as (a & b & -> & Ha & Hb). rewrite without_split by assumption.
  assert (F := S4). apply Forall2_app_inv_r in F as (p & y & F1 & F2 & ->). inversion F2 as [|n q y' b' Hn F3]; subst. destruct Hn as [K1 K2]. cbn [fst] in *. rewrite K2. eexists. split; [reflexivity|].
  exists (p ++ y'). split; cbn [o_heap o_end o_free o_dict o_map].
  - now apply delete_links.
  - change (o_end s :: p ++ n :: y') with ((o_end s :: p) ++ n :: y') in S2. now apply NoDup_remove_1 in S2.
  - inversion S3 as [|? ? X Y]; subst. constructor; [exact X|]. apply Forall_app in Y as [Y1 Y2]. inversion Y2; subst. apply Forall_app. now split.
  - assert (X : forall m c, Forall2 (is_node s) m c -> ~ In k (map fst c) -> Forall2 (is_node (mkO (set_prev (set_next (o_heap s) (n_prev (o_heap s n)) (n_next (o_heap s n))) (n_next (o_heap s n)) (n_prev (o_heap s n))) (o_free s) (o_end s) (d_del keqb (o_map s) k) (d_del keqb (o_dict s) k))) m c).
    { intros m c F Hc. eapply Forall2_impl_in; [|exact F]. intros x z Hx Hz [Z1 Z2]. unfold is_node. cbn [o_heap o_map]. rewrite prev_key, next_key, get_del. split; [exact Z1|]. destruct (dec k (fst z)) as [->|]; [|exact Z2]. destruct Hc. now apply in_map. }
    apply Forall2_app; now apply X.
  - rewrite map_app in *. cbn [map] in S5. now apply NoDup_remove_1 in S5.
  - rewrite del_filter. apply filter_perm with (f := fun p => if dec (fst p) k then false else true) in S6. change (filter _ (a ++ (k, v) :: b)) with (without dec (a ++ (k, v) :: b) k) in S6. now rewrite without_split in S6 by assumption.
Qed.
Lemma del_none s l k : rel s l -> assoc dec l k = None -> o_del keqb s k = Err KeyError.
Proof using Hk. intros R E. unfold o_del. now rewrite (rel_get s l k R), E. Qed.
Lemma get_rel s l k : rel s l -> o_get keqb s k = match assoc dec l k with Some v => Ok v | None => Err KeyError end.
Proof using Hk. intros R. unfold o_get. now rewrite (rel_get s l k R). Qed.
Lemma nodes_keys s L l : Forall2 (is_node s) L l -> Forall2 (fun a k => n_key (o_heap s a) = Some k) L (map fst l).
Proof. induction 1 as [|a p L l [H _] F IH]; constructor; assumption. Qed.
Lemma F2_len {A B} (P : A -> B -> Prop) l m : Forall2 P l m -> length l = length m.
Proof. induction 1; cbn [length]; congruence. Qed.
Lemma iter_rel s l : rel s l -> o_iter s = Ok (map fst l).
Proof.
  intros R. assert (Len := rel_len s l R). destruct R as [L [S1 S2 S3 S4 S5 S6]]. unfold o_iter. apply walk_ok with (l := L).
  - intros u v H. now apply S1.
  - now apply nodes_keys.
  - now apply NoDup_cons_iff in S2.
  - rewrite Len, (F2_len _ _ _ S4). lia.
Qed.
Lemma Forall2_rev' {A B} (P : A -> B -> Prop) l m : Forall2 P l m -> Forall2 P (rev l) (rev m).
Proof. induction 1; cbn [rev]; [constructor|]. apply Forall2_app; [assumption|]. constructor; [assumption|constructor]. Qed.
Lemma reversed_rel s l : rel s l -> o_reversed s = Ok (rev (map fst l)).
Proof.
  intros R. assert (Len := rel_len s l R). destruct R as [L [S1 S2 S3 S4 S5 S6]]. unfold o_reversed. apply walk_ok with (l := rev L).
  - intros u v H. apply S1. apply in_pairs_rev. unfold ring. cbn [rev]. now rewrite rev_app_distr.
  - apply Forall2_rev'. now apply nodes_keys.
  - rewrite <- in_rev. now apply NoDup_cons_iff in S2.
  - rewrite rev_length, Len, (F2_len _ _ _ S4). lia.
Qed.
Lemma items_rel s l : rel s l -> o_items keqb s = Ok l.
Proof using Hk dec.
  intros R. unfold o_items. rewrite (iter_rel s l R). cbn [bind]. assert (X : forall m, (forall p, In p m -> In p l) -> mapR (fun k => do v <- o_get keqb s k; Ok (k, v)) (map fst m) = Ok m).
  { induction m as [|[k v] m IH]; [reflexivity|]. intros H. cbn [map mapR fst]. rewrite (get_rel s l k R). assert (E : assoc dec l k = Some v) by (apply assoc_in; [now destruct R as [L []]|apply H; now left]). rewrite E. cbn [bind]. rewrite IH; [reflexivity|]. intros p Hp. apply H. now right. }
  apply X. auto.
Qed.
Lemma pop_rel s l k d : rel s l ->
  match assoc dec l k, d with
  | Some v, _ => exists s', o_pop keqb s k d = Ok (s', v) /\ rel s' (without dec l k)
  | None, Some v => o_pop keqb s k d = Ok (s, v)
  | None, None => o_pop keqb s k d = Err KeyError
  end.
Proof using Hk.
  intros R. unfold o_pop. rewrite (get_rel s l k R). destruct (assoc dec l k) as [v|] eqn:E; [|now destruct d]. destruct (del_rel s l k v R E) as (s' & -> & R'). now exists s'.
Qed.
Lemma without_first k (v : V) l : NoDup (map fst ((k, v) :: l)) -> assoc dec ((k, v) :: l) k = Some v /\ without dec ((k, v) :: l) k = l.
Proof.
  intros H. assert (H' := H). cbn [map fst] in H'. apply NoDup_cons_iff in H' as [H' _]. split; [apply assoc_in; [exact H|now left]|]. apply (without_split [] l k v); [intros []|exact H'].
Qed.
Lemma without_last k (v : V) l : NoDup (map fst (l ++ [(k, v)])) -> assoc dec (l ++ [(k, v)]) k = Some v /\ without dec (l ++ [(k, v)]) k = l.
Proof.
  intros H. assert (H' := H). rewrite map_app in H'. cbn [map fst] in H'. apply NoDup_remove_2 in H'. rewrite app_nil_r in H'. split; [apply assoc_in; [exact H|apply in_or_app; right; now left]|]. rewrite (without_split l [] k v); [apply app_nil_r|exact H'|intros []].
Qed.
Lemma update_rel m : forall s l, rel s l -> rel (o_update keqb s m) (fold_left (fun l p => with_value dec l (fst p) (snd p)) m l).
Proof using Hk. unfold o_update. induction m as [|p m IH]; intros s l R; cbn [fold_left]; [exact R|]. apply IH. now apply set_rel. Qed.
Lemma fromkeys_rel v m : forall s l, rel s l -> rel (fold_left (fun s k => o_set keqb s k v) m s) (fold_left (fun l k => with_value dec l k v) m l).
Proof using Hk. induction m as [|p m IH]; intros s l R; cbn [fold_left]; [exact R|]. apply IH. now apply set_rel. Qed.
Lemma rebuild (m : list (K * V)) : forall l, NoDup (map fst (l ++ m)) -> fold_left (fun l p => with_value dec l (fst p) (snd p)) m l = l ++ m.
Proof.
  induction m as [|[k v] m IH]; intros l H; cbn [fold_left fst snd]; [now rewrite app_nil_r|]. unfold with_value at 2. assert (E : assoc dec l k = None).
  { apply assoc_none. rewrite map_app in H. cbn [map fst] in H. apply NoDup_remove_2 in H. intros X. apply H, in_or_app. now left. }
  rewrite E, IH; [now rewrite <- app_assoc|]. now rewrite <- app_assoc.
Qed.
Lemma call_rel s l c : rel s l -> snd (o_call keqb s c) = snd (on_list dec l c) /\ rel (fst (o_call keqb s c)) (fst (on_list dec l c)).
Proof using Hk.
  intros R. assert (ND : NoDup (map fst l)) by now destruct R as [L []]. destruct c as [k v|k|k|k d|last| |k v|m| |ks v| | | | |]; cbn [o_call on_list fst snd].
  - split; [reflexivity|]. now apply set_rel.
  - rewrite (get_rel s l k R). now destruct (assoc dec l k).
  - destruct (assoc dec l k) as [v|] eqn:E; [|now rewrite (del_none s l k R E)]. destruct (del_rel s l k v R E) as (s' & -> & R'). now split.
  - assert (P := pop_rel s l k d R). destruct (assoc dec l k) as [v|]; [destruct P as (s' & -> & R'); now split|]. destruct d; now rewrite P.
  - unfold o_popitem. assert (Len := rel_len s l R). destruct l as [|[k v] l]; [destruct (o_dict s); [destruct last; now split|discriminate Len]|]. destruct (o_dict s) as [|p0 d0]; [discriminate Len|]. destruct last.
    + rewrite (reversed_rel _ _ R). cbn [bind]. destruct (exists_last (l := (k, v) :: l)) as (r & [k' v'] & E); [discriminate|]. rewrite E in *. rewrite map_app. rewrite !rev_app_distr. cbn [map rev app fst].
      destruct (without_last k' v' r ND) as [A W]. assert (P := pop_rel s _ k' None R). rewrite A in P. destruct P as (s' & -> & R'). rewrite W in R'. cbn [bind or_error fst snd]. split; [reflexivity|]. now rewrite rev_involutive.
    + rewrite (iter_rel _ _ R). cbn [bind map fst]. destruct (without_first k v l ND) as [A W]. assert (P := pop_rel s _ k None R). rewrite A in P. destruct P as (s' & -> & R'). rewrite W in R'. now split.
  - split; [reflexivity|]. apply clear_rel.
  - unfold o_setdefault. rewrite (get_rel s l k R). assert (S := set_rel s l k v R). unfold with_value in S. destruct (assoc dec l k); now split.
  - split; [reflexivity|]. now apply update_rel.
  - unfold o_copy. rewrite (items_rel s l R). cbn [bind or_error fst snd]. split; [reflexivity|]. assert (X := update_rel l _ _ (clear_rel (mkO (fun _ => mkNode None 0 0) 0 0 [] []))). rewrite rebuild in X by exact ND. exact X.
  - split; [reflexivity|]. apply fromkeys_rel, clear_rel.
  - split; [|exact R]. now rewrite !lenN_length, (rel_len s l R).
  - now rewrite (iter_rel _ _ R).
  - now rewrite (reversed_rel _ _ R).
  - now rewrite (items_rel _ _ R).
  - unfold o_values. now rewrite (items_rel _ _ R).
Qed.
Lemma calls_rel cs : forall s l, rel s l -> snd (o_calls keqb s cs) = snd (on_lists dec l cs) /\ rel (fst (o_calls keqb s cs)) (fst (on_lists dec l cs)).
Proof using Hk.
  induction cs as [|c cs IH]; intros s l R; [now split|]. cbn [o_calls on_lists fst snd]. destruct (call_rel s l c R) as [E R']. destruct (IH _ _ R') as [E2 R2]. split; [now rewrite E, E2|exact R2].
Qed.
Lemma replies_agree (cs : list (call K V)) : snd (o_calls keqb o_new cs) = snd (on_lists dec [] cs).
Proof using Hk. apply calls_rel, clear_rel. Qed.

Variable veqb : V -> V -> bool.
Hypothesis Hv : decides veqb.
Lemma same_items (l m : list (K * V)) : length l = length m ->
  (forallb (fun p => keqb (fst (fst p)) (fst (snd p)) && veqb (snd (fst p)) (snd (snd p))) (combine l m) = true <-> l = m).
Proof using Hk Hv.
  revert m. induction l as [|[k v] l IH]; intros [|[k' v'] m] Len; try discriminate Len; [now split|]. cbn [combine forallb fst snd]. rewrite !andb_true_iff, IH by now injection Len. rewrite (Hk k k'), (Hv v v'). split; [intros [[-> ->] ->]; reflexivity|]. intros H. now injection H as -> -> ->.
Qed.
Lemma equal_agree (cs ds : list (call K V)) : exists b, o_eq keqb veqb (fst (o_calls keqb o_new cs)) (fst (o_calls keqb o_new ds)) = Ok b /\ (b = true <-> fst (on_lists (V := V) dec [] cs) = fst (on_lists dec [] ds)).
Proof using Hk Hv.
  destruct (calls_rel cs o_new [] (clear_rel _)) as [_ R]. destruct (calls_rel ds o_new [] (clear_rel _)) as [_ S]. revert R S. generalize (fst (o_calls keqb o_new cs)) (fst (o_calls keqb o_new ds)) (fst (on_lists dec [] cs)) (fst (on_lists dec [] ds)). intros s t l m R S.
  unfold o_eq. rewrite !lenN_length, (rel_len _ _ R), (rel_len _ _ S), (items_rel _ _ R), (items_rel _ _ S). cbn [bind]. destruct (N.eqb_spec (N.of_nat (length l)) (N.of_nat (length m))) as [E|E].
  - eexists. split; [reflexivity|]. apply same_items. lia.
  - exists false. split; [reflexivity|]. split; [discriminate|]. intros ->. lia.
Qed.
End Dict.
