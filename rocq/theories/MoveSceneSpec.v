(** MoveSceneSpec: the releases that are moved. *)
From Verif Require Import Base Path MoveScene.

(** all occurrences of [s] are taken out, from left to right *)
Inductive cuts (s : text) : text -> text -> Prop :=
| cu_nil : cuts s [] []
| cu_hit r u : cuts s r u -> cuts s (s ++ r) u
| cu_miss c r u : (forall b, c :: r <> s ++ b) -> cuts s r u -> cuts s (c :: r) (c :: u).
(** what is after the last dash *)
Definition after_dash (t x : text) : Prop := ~ In 45 x /\ (t = x \/ exists a, t = a ++ 45 :: x).
Definition group_of (r x : text) : Prop := exists a b, cuts (str ".nzb") r a /\ cuts (str ".srr") a b /\ after_dash b x.
(** the group of a line without the end of the line *)
Definition group_line (lines : list text) (x : text) : Prop := exists l y, In l lines /\ group_of l y /\ x = filter (fun c => negb (c =? 10) && negb (c =? 13)) y.
(** a name with capitals, also in its group, and without spaces *)
Definition looks (e : text) : Prop := ~ In 32 e /\ lower e <> e /\ exists x, group_of e x /\ x <> e /\ lower x <> x.
Definition scene (lines : list text) (e : text) : Prop := looks e /\ exists x, group_of e x /\ group_line lines x.
(** the name [e] at [p] is to be moved to [q] *)
Definition moves (lines : list text) (out : text) (dirs : list (text * option (list text))) (p q : text) : Prop :=
  exists dir names e, In (dir, Some names) dirs /\ In e names /\ scene lines e /\ p = pjoin dir e /\ (out = [] /\ q = pjoin_all dir [str "scene"; e] \/ out <> [] /\ q = pjoin out e).
Definition paths (dirs : list (text * option (list text))) : list text := flat_map (fun x => match snd x with Some names => map (pjoin (fst x)) names | None => [] end) dirs.
(** all that is listed is there, under one name just once, and nothing is at the destinations *)
Definition clear (lines : list text) (out : text) (dirs : list (text * option (list text))) (d : disk) : Prop :=
  NoDup (paths dirs) /\
  (forall p q, moves lines out dirs p q -> d p <> None /\ d q = None) /\
  (forall p q p' q', moves lines out dirs p q -> moves lines out dirs p' q' -> p <> p' -> q <> q').
