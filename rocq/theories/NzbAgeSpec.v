(** NzbAgeSpec: the date and the age of NZB files. *)
From Verif Require Import Base.

Definition value (ds : text) : N := fold_left (fun v c => v * 10 + (c - 48)) ds 0.
(** a date of [v] in the line after [a] *)
Definition date_at (line a : text) (v : N) : Prop :=
  exists ds b, line = a ++ str " date=""" ++ ds ++ 34 :: b /\ ds <> [] /\ (forall c, In c ds -> 48 <= c <= 57) /\ v = value ds.
(** the last date of the line *)
Definition dated (line : text) (v : N) : Prop := exists a, date_at line a v /\ forall a' v', date_at line a' v' -> (length a' <= length a)%nat.
Definition no_date (line : text) : Prop := forall a v, ~ date_at line a v.
(** the date of a file: that of the first line with one *)
Definition file_date (lines : list text) (v : N) : Prop := exists a l b, lines = a ++ l :: b /\ dated l v /\ forall x, In x a -> no_date x.
Definition is_nzb (n : text) : Prop := exists b, n = b ++ str ".nzb".
(** more than [s] and less than [e] whole days old: the days are those begun for dates that are yet to come *)
Definition between (s e now d : N) : Prop := d + (s + 1) * 86400 <= now /\ now < d + e * 86400.
Definition wanted (s e now : N) (n : text) (c : list text) : Prop := is_nzb n /\ exists d, file_date c d /\ between s e now d.
Definition fine (f : list (text * list text)) : Prop := forall n c d, In (n, c) f -> is_nzb n -> file_date c d -> d <= 253402300799.
