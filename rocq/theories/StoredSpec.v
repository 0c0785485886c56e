(** StoredSpec: orders of files. *)
From Verif Require Import Base InfoSpec DirsSpec.

(** the files of [l] with [P] in their order, and the others in theirs *)
Inductive parted (P : text -> Prop) : list text -> list text -> list text -> Prop :=
| parted_nil : parted P [] [] []
| parted_yes x l a b : P x -> parted P l a b -> parted P (x :: l) (x :: a) b
| parted_no x l a b : ~ P x -> parted P l a b -> parted P (x :: l) a (x :: b).
(** an archive, or the .srr file of one, and its SFV file *)
Definition belongs (m s : text) : Prop := exists b e c f, m = b ++ e /\ (lower e = str ".srr" \/ lower e = str ".rar") /\ s = c ++ f /\ lower f = str ".sfv" /\ lower b = lower c.
(** [l] are the files of [rest] in order, each directly after those of [ms] that belong to it, in order *)
Inductive stacked (ms : list text) : list text -> list text -> Prop :=
| stacked_nil : stacked ms [] []
| stacked_cons x rest l own others : parted (fun m => belongs m x) ms own others -> stacked ms rest l -> stacked ms (x :: rest) (own ++ x :: l).
Definition nfo (x : text) : Prop := named ".nfo" x.
(** the path is absolute *)
Definition absolute (x : text) : Prop := exists r, x = 47 :: r.
(** [a] is not after [b] in the order of Python *)
Definition not_after (a b : text) : Prop := ~ text_before b a.
