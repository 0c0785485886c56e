(** RunSpec: going through all releases. *)
From Verif Require Import Base Sfv Run.

(** the releases of the given folders: those found below them with -r, else the folders *)
Inductive works (abspath : text -> text) (releases : text -> list text) : bool -> list text -> list text -> Prop :=
| wk_end rec : works abspath releases rec [] []
| wk_single d l w : works abspath releases false l w -> works abspath releases false (d :: l) (abspath d :: w)
| wk_below d l w : works abspath releases true l w -> works abspath releases true (d :: l) (releases (abspath d) ++ w).
Section Run.
Variable gen : list text -> text -> gen_end.
(** from the releases [seen] on, the releases [l] are gone through and those in [bad] have no SRR file *)
Inductive through : list text -> list text -> list text -> Prop :=
| th_end seen : through seen [] []
| th_made seen r l bad : gen seen r = Made -> through (seen ++ [r]) l bad -> through seen (r :: l) bad
| th_not seen r l bad : gen seen r = NotMade \/ gen seen r = Fails FileNotFound -> through (seen ++ [r]) l bad -> through seen (r :: l) (r :: bad).
End Run.
(** the first answer that is one is y *)
Definition says (yes : bool) (answers : list text) : Prop :=
  exists a x b, answers = a ++ x :: b /\ lower x = str (if yes then "y" else "n") /\ Forall (fun z => lower z <> str "y" /\ lower z <> str "n") a.
