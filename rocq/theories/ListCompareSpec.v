(** ListCompareSpec: lists in text files. *)
From Verif Require Import Base.

(** the text has these lines, all with one of the three line ends *)
Inductive written : list text -> text -> Prop :=
| wr_nil : written [] []
| wr_cons l e ls t : ~ In 10 l -> ~ In 13 l -> e = [10] \/ e = [13; 10] \/ (e = [13] /\ forall r, t <> 10 :: r) -> written ls t -> written (l :: ls) (l ++ e ++ t).
