(** SelectEx: releases for the examples of C69. *)
From Verif Require Import Base BaseFacts Path Dirs DirsSpec DirsFacts Select SelectSpec SelectFacts.
(** a check of [tree_ok] and [files_ok] *)
Fixpoint distinct (l : list text) : bool := match l with [] => true | x :: l => negb (mem_text x l) && distinct l end.
Definition good_name (n : text) : bool := negb (existsb (fun c => (c =? 47) || (c =? 0)) n) && negb (lenN n =? 0).
Fixpoint checked (t : tree) : bool :=
  let '(Dir files dirs) := t in distinct files && forallb good_name files && distinct (map fst dirs) && forallb (fun d => good_name (fst d) && checked (snd d)) dirs.
Lemma distinct_ok l : distinct l = true -> NoDup l.
Proof.
  induction l as [|x l IH]; intros H; [constructor|]. cbn in H. apply andb_true_iff in H. destruct H as [H1 H2]. constructor; [|now apply IH].
  intros X. apply negb_true_iff, not_true_iff_false in H1. apply H1. apply existsb_exists. exists x. split; [exact X|apply teqb_refl].
Qed.
Lemma good_name_ok n : good_name n = true -> n <> [] /\ ~ In 47 n /\ ~ In 0 n.
Proof.
  unfold good_name. rewrite andb_true_iff, !negb_true_iff. intros [H L]. split; [intros ->; discriminate|]. apply not_true_iff_false in H.
  split; intros X; apply H, existsb_exists; eexists; (split; [exact X|reflexivity]).
Qed.
Lemma checked_ok t : checked t = true -> tree_ok t /\ forall root, files_ok root t.
Proof.
  induction t as [files dirs IH] using tree_induction. cbn [checked]. rewrite !andb_true_iff. intros [[[A B] C] D]. rewrite forallb_forall in B, D.
  assert (Q : forall n s, In (n, s) dirs -> good_name n = true /\ checked s = true) by (intros n s I; specialize (D _ I); cbn [fst snd] in D; now apply andb_true_iff in D).
  split.
  - constructor; [now apply distinct_ok|]. intros n s I. destruct (Q n s I) as [G E]. destruct (good_name_ok n G) as (X & Y & Z). split; [exact X|]. split; [exact Y|]. split; [exact Z|]. now apply (IH n s I).
  - intros root d fs ds H. inversion H; subst.
    + split; [now apply distinct_ok|]. intros n I. destruct (good_name_ok n (B n I)) as (X & Y & _). now split.
    + match goal with I : In (?n, ?s) dirs |- _ => destruct (Q n s I) as [_ E]; destruct (IH n s I E) as [_ F] end. eapply F. eassumption.
Qed.
Definition flat (l : list string) : tree := Dir (map str l) [].
Lemma flat_file root l n : In n l -> file_at root (flat l) root (str n) (root ++ 47 :: str n).
Proof. intros I. exists (map str l), []. split; [constructor|]. split; [now apply in_map|reflexivity]. Qed.
(** images of a release with music, one of a player, one in a directory of proofs and a proof in an archive *)
Definition music : tree := Dir (map str ["00-a-b-grp.nfo"; "01-x-grp.mp3"; "00-a-b-grp.jpg"; "Folder.jpg"; "booklet-grp.JPG"; "imdb.jpg"]%string)
  [(str "Proof", Dir [str "x.PNG"; str "y.rar"] [])].
