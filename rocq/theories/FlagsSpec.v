(** FlagsSpec: the dictionary size in the flags of a RAR file block. *)
From Verif Require Import Base VolSpec.

(** bits 5 to 7 *)
Definition dict_field (flags : N) : N := flags / 32 mod 8.
(** the number without leading zeros, for up to [k] digits *)
Definition decimal (n : N) (t : text) : Prop := exists k, t = dec k n /\ n < 10 ^ N.of_nat k /\ 10 ^ (N.of_nat k - 1) <= n.
