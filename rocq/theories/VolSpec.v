(** VolSpec: how RAR names the volumes of a set. *)
From Verif Require Import Base.

(** the number [n] in [k] decimal digits *)
Fixpoint dec (k : nat) (n : N) : text :=
  match k with O => [] | S k' => dec k' (n / 10) ++ [48 + n mod 10] end.
(** [t] is [s] but for the case of its letters *)
Definition up_to_case (t s : text) : Prop :=
  Forall2 (fun a b => a = b \/ (65 <= a <= 90 /\ b = a + 32)) t s.
Definition is_digit (c : N) : Prop := 48 <= c <= 57.

Inductive style :=
| Old (base rar : text)                  (* base.rar, base.r00 .. base.r99, base.s00 .. base.z99 *)
| New (base part rar : text) (k : nat)   (* base.part1.rar ..., in [k] digits *)
| Num (base : text) (start : N).         (* base.000 or base.001 ... *)

(** the name of volume [i], counted from 0 *)
Definition vol_name (s : style) (i : N) : text :=
  match s with
  | Old base rar => if i =? 0 then base ++ rar
                    else base ++ [46; 114 + (i - 1) / 100] ++ dec 2 ((i - 1) mod 100)
  | New base part rar k => base ++ part ++ dec k (i + 1) ++ rar
  | Num base start => base ++ [46] ++ dec 3 (start + i)
  end.
(** how many volumes can be named *)
Definition vol_limit (s : style) : N :=
  match s with Old _ _ => 901 | New _ _ _ k => 10 ^ N.of_nat k - 1 | Num _ start => 1000 - start end.
Definition style_ok (s : style) : Prop :=
  match s with
  | Old _ rar => up_to_case rar (str ".rar")
  | New _ part rar k => up_to_case part (str ".part") /\ up_to_case rar (str ".rar")
  | Num _ start => start = 0 \/ start = 1
  end.
(** a name like base.part2.rar, where .r00 could follow or part3 *)
Definition like_part (base : text) : Prop :=
  exists p part ds, base = p ++ part ++ ds /\ up_to_case part (str ".part") /\ Forall is_digit ds.
(** the names themselves tell the numbering, or the archive header does ([old]) *)
Definition told (s : style) (old : bool) : Prop :=
  match s with
  | Old base _ => old = true \/ ~ like_part base
  | New _ _ _ _ => old = false
  | Num _ _ => True
  end.
(** names ending as those of RAR volumes do *)
Definition rar_ending (t : text) : Prop :=
  (exists p e, t = p ++ e /\ up_to_case e (str ".rar")) \/
  (exists p c a b, t = p ++ [46; c; a; b] /\ is_digit a /\ is_digit b /\
     (is_digit c \/ 114 <= c <= 122 \/ 82 <= c <= 90)).
(** the names of [n] volumes *)
Definition vol_names (s : style) (n : nat) : list text := map (fun i => vol_name s (N.of_nat i)) (seq 0 n).
(** a base name that itself ends like a part or volume number *)
Definition numbered (base : text) : Prop :=
  exists p part ds, base = p ++ part ++ ds /\ up_to_case part (str "part") /\ Forall is_digit ds /\ ds <> [].
(** styles of which any number of sets can be together in a folder *)
Definition plain_style (s : style) : Prop :=
  match s with Old base _ => ~ numbered base | New _ _ _ _ => True | Num _ start => start = 1 end.
