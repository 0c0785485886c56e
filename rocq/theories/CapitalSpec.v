(** CapitalSpec: files of a folder whose names are equal but for case. *)
From Verif Require Import Base PathSpec.

(** [p] is [b] in the folder [d]; the slashes between them are left out of [d], unless it is the root *)
Definition split_path (p d b : text) : Prop :=
  ~ In 47 b /\
  (p = b /\ d = str "." \/
   (exists k, p = repeat 47 (S k) ++ b /\ d = repeat 47 (S k)) \/
   (exists k d' x, d = d' ++ [x] /\ x <> 47 /\ p = d ++ repeat 47 (S k) ++ b)).

Section Os.
Variables (lowf : text -> text) (listdir : text -> option (list text)) (isfile : text -> bool).
Definition same_but_case (d b c : text) : Prop := lowf c = lowf b /\ isfile (in_folder d c) = true.
Definition lower_case (b : text) : Prop := lowf b = b.
End Os.
