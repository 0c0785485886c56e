(** DirsEx: directories for the examples of C67. *)
From Verif Require Import Base BaseFacts Path Dirs DirsSpec DirsFacts.
Definition one (f : string) : tree := Dir [str f] [].
Definition missed_tree : tree := Dir [] [(str "Show", one "a.sfv"); (str "Show-Packs", Dir [] [(str "S01-GRP", one "b.nfo")])].
Lemma missed_ok : tree_ok missed_tree.
Proof.
  assert (forall f, tree_ok (one f)) as O by (intros f; constructor; [constructor|contradiction]).
  constructor; [vm_compute; constructor; [intros [H|[]]; discriminate H|constructor; [easy|constructor]]|].
  intros n s [E|[E|[]]]; injection E as <- <-; (split; [discriminate|]; split; [vm_compute; intuition discriminate|]; split; [vm_compute; intuition discriminate|]); [apply O|].
  constructor; [vm_compute; constructor; [easy|constructor]|]. intros n s [E|[]]. injection E as <- <-. split; [discriminate|]. split; [vm_compute; intuition discriminate|]. split; [vm_compute; intuition discriminate|]. apply O.
Qed.
Definition cd_dirs : list (text * tree) := [(str "CD1-A-B", one "a.sfv"); (str "CD2-C-D", one "b.sfv")].
(** two releases with directories in them, one with disks, and a pack *)
Definition some_tree : tree :=
  Dir [str "x.txt"]
    [(str "Z-GRP", Dir [str "z.nfo"] [(str "CD1", one "z1.sfv"); (str "CD2", one "z2.sfv"); (str "Sample", one "z.avi")]);
     (str "A-GRP", Dir [str "a.rar"; str "a.sfv"] [(str "Subs", one "a-subs.sfv"); (str "Old-GRP", one "old.sfv")]);
     (str "Pack", Dir [str "pack.nfo"] [(str "P.2-GRP", one "p2.sfv"); (str "P.1-GRP", one "p1.SFV")])].
Lemma some_ok : tree_ok some_tree.
Proof.
  assert (forall f, tree_ok (one f)) as O by (intros f; constructor; [constructor|contradiction]).
  assert (forall n, existsb (fun c => (c =? 47) || (c =? 0)) n = false -> ~ In 47 n /\ ~ In 0 n) as C.
  { intros n H. split; intros X; apply not_true_iff_false in H; apply H; apply existsb_exists; eexists; (split; [exact X|reflexivity]). }
  assert (forall (l : list text), (fix nd (l : list text) := match l with [] => true | x :: l => negb (mem_text x l) && nd l end) l = true -> NoDup l) as ND.
  { induction l as [|x l IH]; intros H; [constructor|]. apply andb_true_iff in H. destruct H as [H1 H2]. constructor; [|now apply IH]. intros X. apply negb_true_iff, not_true_iff_false in H1. apply H1. apply existsb_exists. exists x. split; [exact X|apply teqb_refl]. }
  constructor; [apply ND; vm_compute; reflexivity|]. intros n s H.
  assert (n <> [] /\ tree_ok s /\ existsb (fun c => (c =? 47) || (c =? 0)) n = false) as (A & B & D); [|destruct (C n D); tauto].
  destruct H as [E|[E|[E|[]]]]; injection E as <- <-; (split; [discriminate|]; split; [|vm_compute; reflexivity]); (constructor; [apply ND; vm_compute; reflexivity|]); intros n s H;
    (assert (n <> [] /\ tree_ok s /\ existsb (fun c => (c =? 47) || (c =? 0)) n = false) as (A & B & D); [|destruct (C n D); tauto]).
  - destruct H as [E|[E|[E|[]]]]; injection E as <- <-; (split; [discriminate|]; split; [apply O|vm_compute; reflexivity]).
  - destruct H as [E|[E|[]]]; injection E as <- <-; (split; [discriminate|]; split; [apply O|vm_compute; reflexivity]).
  - destruct H as [E|[E|[]]]; injection E as <- <-; (split; [discriminate|]; split; [apply O|vm_compute; reflexivity]).
Qed.
Lemma some_clear : clear (fun p u => is_release (basename p) u = true) (str "/m") some_tree.
Proof.
  assert (forallb (fun x => forallb (fun y => negb (is_release (basename (fst x)) (snd x) && part_of (fst x) (fst y)) || teqb (fst x) (fst y) || starts_with N.eqb (fst x ++ [47]) (fst y)) (walk (str "/m") some_tree)) (walk (str "/m") some_tree) = true) as K by (vm_compute; reflexivity).
  assert (path_ok (str "/m")) as Hp by (split; [discriminate|reflexivity]). intros r u q v A R B I. apply (walk_in _ some_ok _ Hp) in A, B. rewrite forallb_forall in K. specialize (K _ A). rewrite forallb_forall in K. specialize (K _ B). cbn [fst snd] in K.
  apply part_of_spec in I. rewrite R, I in K. cbn [andb negb orb] in K. apply orb_true_iff in K. destruct K as [K|K]; [left; now apply teqb_eq|]. right. left. apply starts_inv in K. destruct K as (s & ->). exists s. now rewrite <- app_assoc.
Qed.
