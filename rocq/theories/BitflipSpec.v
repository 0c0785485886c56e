(** BitflipSpec: which changes of a file are searched for. *)
From Verif Require Import Base Bitflip.

(** one bit, any value, or two bits beside each other *)
Definition changed (m : mode) (b b' : byte) : Prop :=
  match m with
  | MBit => exists i, i < 8 /\ forall j, N.testbit (b2n b') j = xorb (N.testbit (b2n b) j) (j =? i)
  | MByte => True
  | MSwitch => exists i, i < 7 /\ forall j, N.testbit (b2n b') j = xorb (N.testbit (b2n b) j) ((j =? i) || (j =? i + 1))
  end.
(** the byte at place [p], from [a] up to [b], is changed *)
Definition change_at (m : mode) (a b p : N) (d d' : bytes) : Prop :=
  a <= p < b /\ exists u x x' v, lenN u = p /\ d = u ++ x :: v /\ d' = u ++ x' :: v /\ changed m x x'.
Definition change (m : mode) (a b : N) (d d' : bytes) : Prop := exists p, change_at m a b p d d'.
(** the places of the arguments, or those of the whole file *)
Definition places (range : option (N * N)) (d : bytes) (a b : N) : Prop :=
  match range with Some (x, y) => a = x /\ b = N.min y (lenN d) | None => a = 0 /\ b = lenN d end.
