(** CountGroupsSpec: how often names are there. *)
From Verif Require Import Base MoveSceneSpec.

Definition count (l : list text) (k : text) : N := N.of_nat (count_occ (list_eq_dec N.eq_dec) l k).
(** [gs] are the groups of the names *)
Definition groups_of (names gs : list text) : Prop := Forall2 after_dash names gs.
(** the last run of [k] in the list has [n] names *)
Definition last_run (l : list text) (k : text) (n : N) : Prop :=
  0 < n /\ exists a b, l = a ++ repeat k (N.to_nat n) ++ b /\ ~ In k b /\ forall a', a <> a' ++ [k].
(** all of [k] are in one run *)
Definition together (l : list text) (k : text) : Prop := exists a n b, l = a ++ repeat k n ++ b /\ ~ In k a /\ ~ In k b.
(** most or fewest first *)
Definition in_order (reverse : bool) (l : list (text * N)) : Prop :=
  forall a x b y c, l = a ++ x :: b ++ y :: c -> if reverse then snd y <= snd x else snd x <= snd y.
