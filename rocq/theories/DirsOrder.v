(** DirsOrder: releases are found in the order of their names. *)
From Verif Require Import Base BaseFacts Sfv SfvSortFacts Info InfoSpec InfoFacts Path Dirs DirsSpec DirsFacts.
From Coq Require Import Permutation Sorted.

Lemma put_fst {A} (d : text * A) l : map fst (put d l) = insert_text (fst d) (map fst l).
Proof. induction l as [|e l IH]; [reflexivity|]. cbn [put map insert_text]. destruct (text_lt (fst d) (fst e)); [reflexivity|]. cbn [map]. now rewrite IH. Qed.
Lemma by_name_fst {A} (l : list (text * A)) : map fst (by_name l) = sort_text (map fst l).
Proof. induction l as [|d l IH]; [reflexivity|]. unfold by_name, sort_text in *. cbn [fold_right map]. now rewrite put_fst, IH. Qed.
Lemma before_prefix p : forall a b, before a b -> before (p ++ a) (p ++ b).
Proof. induction p as [|c p IH]; intros a b H; [exact H|]. cbn. left. split; [reflexivity|now apply IH]. Qed.
Lemma before_longer p s : before p (p ++ 47 :: s).
Proof. rewrite <- (app_nil_r p) at 1. apply before_prefix. exact I. Qed.
Lemma before_names m : forall n x y, ~ In 47 m -> ~ In 47 n -> (x = [] \/ exists s, x = 47 :: s) -> text_lt m n = true -> before (m ++ x) (n ++ y).
Proof.
  induction m as [|c m IH]; intros [|d n] x y Hm Hn Hx H; try discriminate.
  - cbn [app]. destruct Hx as [-> |(s & ->)]; [exact I|]. cbn. right. split; [intros <-; apply Hn; now left|now left].
  - cbn in H. apply orb_true_iff in H. cbn. destruct (N.eq_dec c d) as [->|N].
    + left. split; [reflexivity|]. destruct H as [H|H]; [lia|]. apply andb_true_iff in H. apply IH; try tauto; intros X; [apply Hm|apply Hn]; now right.
    + right. split; [exact N|]. right. split; [intros ->; apply Hn; now left|]. destruct H as [H|H]; [lia|]. apply andb_true_iff in H. lia.
Qed.
Lemma before_sub p m n q r : ~ In 47 m -> ~ In 47 n -> text_lt m n = true -> ab (p ++ 47 :: m) q -> ab (p ++ 47 :: n) r -> before q r.
Proof.
  intros Hm Hn H A B. assert (exists x, (x = [] \/ exists s, x = 47 :: s) /\ q = (p ++ [47]) ++ m ++ x) as (x & Hx & ->). { destruct A as [-> |(s & ->)]; [exists []|exists (47 :: s)]; (split; [eauto|]); rewrite <- !app_assoc; cbn [app]; now rewrite ?app_nil_r. }
  assert (exists y, r = (p ++ [47]) ++ n ++ y) as (y & ->). { destruct B as [-> |(s & ->)]; [exists []|exists (47 :: s)]; rewrite <- !app_assoc; cbn [app]; now rewrite ?app_nil_r. }
  apply before_prefix. now apply before_names.
Qed.
Lemma sorted_app {A} (R : A -> A -> Prop) a b : StronglySorted R a -> StronglySorted R b -> (forall x y, In x a -> In y b -> R x y) -> StronglySorted R (a ++ b).
Proof.
  induction 1 as [|x a Ha IH F]; intros Hb H; [exact Hb|]. cbn. constructor; [apply IH; auto; intros; apply H; auto; now right|]. apply Forall_app. split; [exact F|]. apply Forall_forall. intros y Y. apply H; [now left|exact Y].
Qed.
Lemma walk_sorted t : tree_ok t -> forall p, path_ok p -> StronglySorted before (map fst (walk p t)).
Proof.
  induction t as [files dirs IH] using tree_induction. intros Hok p Hp. inversion Hok as [f d ND Hd]; subst. rewrite walk_eq; [|exact Hp|intros n s J; destruct (Hd n s J); tauto].
  assert (forall n s, In (n, s) dirs -> forall q, In q (map fst (walk (p ++ 47 :: n) s)) -> ab (p ++ 47 :: n) q) as Hw.
  { intros n s J q K. apply in_map_iff in K. destruct K as ([q' u] & <- & K). destruct (Hd n s J) as (A & B & _ & C). apply (walk_in s C) in K; [|now apply pjoin_ok]. now apply at_ab in K. }
  pose proof (sort_sorted _ ND) as S. rewrite <- by_name_fst in S. assert (incl (by_name dirs) dirs) as Il by (intros x X; apply (Permutation_in _ (Permutation_sym (by_name_perm dirs))); exact X).
  cbn [map fst]. rewrite concat_map, map_map. constructor.
  - revert Il S. generalize (by_name dirs) as l. induction l as [|[n s] l IHl]; intros Il S; [constructor|]. cbn [map concat fst snd] in *. inversion S as [|? ? S' F]; subst. assert (In (n, s) dirs) as J by (apply Il; now left). destruct (Hd n s J) as (A & B & _ & C).
    apply sorted_app; [apply (IH n s J C), pjoin_ok; auto|apply IHl; [intros x X; apply Il; now right|exact S']|]. intros x y X Y. apply (Hw n s J) in X. apply in_concat in Y. destruct Y as (k & K & Y). apply in_map_iff in K. destruct K as ([m u] & <- & K). cbn [fst snd] in Y.
    assert (In (m, u) dirs) as J2 by (apply Il; now right). apply (Hw m u J2) in Y. rewrite Forall_forall in F. assert (In m (map fst l)) as M by (apply in_map_iff; now exists (m, u)). apply F, before_lt in M. destruct (Hd m u J2) as (_ & B2 & _). now apply (before_sub p n m).
  - apply Forall_forall. intros q K. apply in_concat in K. destruct K as (k & K & Y). apply in_map_iff in K. destruct K as ([m u] & <- & K). cbn [fst snd] in Y. apply Il in K. apply (Hw m u K) in Y.
    assert (below p q) as (s & ->) by (apply (below_ab p (p ++ 47 :: m)); [now exists m|exact Y]). apply before_longer.
Qed.
Lemma found_sorted l : forall last, StronglySorted before (map fst l) -> StronglySorted before (fst (found last l)) /\ incl (fst (found last l)) (map fst l).
Proof.
  induction l as [|[p t] l IH]; intros last S; cbn [found fst map]; [split; [constructor|easy]|]. cbn [map fst] in S. inversion S as [|? ? S' F]; subst.
  assert (forall last, StronglySorted before (fst (found last l)) /\ incl (fst (found last l)) (p :: map fst l)) as K. { intros k. destruct (IH k S') as [A B]. split; [exact A|]. intros x X. right. now apply B. }
  destruct (_ && _); [apply K|]. destruct (is_release (basename p) t); [|apply K]. destruct (IH p S') as [A B]. destruct (found p l) as [r k]. cbn [fst] in *. split.
  - constructor; [exact A|]. rewrite Forall_forall in *. intros x X. apply F. now apply B.
  - intros x [<- |X]; [now left|right; now apply B].
Qed.
Lemma releases_sound root t : tree_ok t -> dir_path root ->
  StronglySorted before (get_release_directories root t) /\
  (forall p, In p (get_release_directories root t) -> exists u, at_path root t p u /\ rel p u) /\
  (forall p q, In p (get_release_directories root t) -> In q (get_release_directories root t) -> ~ below p q).
Proof.
  intros Hok Hr'. pose proof (dir_path_ok _ Hr') as Hr. destruct (found_walk t Hok root Hr [] (or_introl eq_refl)) as (_ & B & C & _). split; [|split; [exact B|exact C]]. unfold get_release_directories. apply found_sorted. now apply walk_sorted.
Qed.
