(** NzbMergeSpec: the merged NZB file of a release. *)
From Coq Require Import Permutation Sorted.
From Verif Require Import Base NzbMerge.

Section Merge.
Variables (A : Type) (cwd_dir : text -> bool).
(** an NZB file that is seen: no folder of its name is in the current folder *)
Definition seen (n : text) : Prop := cwd_dir n = false /\ exists b e, n = b ++ e /\ lower e = str ".nzb".
(** the NZB files of the folder that are seen, all of them can be read *)
Inductive picks : folder A -> list (text * list A) -> Prop :=
| pk_nil : picks [] []
| pk_take n a f cs : seen n -> picks f cs -> picks ((n, Nzb a) :: f) ((n, a) :: cs)
| pk_skip n e f cs : ~ seen n -> picks f cs -> picks ((n, e) :: f) cs.
(** from short to long names, those of equal length in their order *)
Definition by_length (cs l : list (text * list A)) : Prop :=
  Permutation cs l /\ StronglySorted (fun x y => lenN (fst x) <= lenN (fst y)) l /\
  forall n, filter (fun x => lenN (fst x) =? n) l = filter (fun x => lenN (fst x) =? n) cs.
(** one file has all of it *)
Definition merged (f : folder A) (cs : list (text * list A)) (f' : folder A) : Prop :=
  exists k a l, by_length cs ((k, a) :: l) /\ forall n e, In (n, e) f' <-> (n = k /\ e = Nzb (a ++ flat_map snd l)) \/ (In (n, e) f /\ ~ seen n).
(** less than two NZB files are seen *)
Definition single (f : folder A) : Prop := forall n e m e', In (n, e) f -> seen n -> In (m, e') f -> seen m -> n = m.
Definition done (f f' : folder A) : Prop := (f' = f /\ single f) \/ exists cs, picks f cs /\ 2 <= lenN cs /\ merged f cs f'.
End Merge.
