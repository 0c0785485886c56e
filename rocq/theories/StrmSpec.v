(** StrmSpec: where a signature occurs in a file. *)
From Verif Require Import Base.

Definition occurs (sig l : bytes) (o : N) : Prop := exists a b, l = a ++ sig ++ b /\ lenN a = o.
Definition first_occurs (sig l : bytes) (o : N) : Prop := occurs sig l o /\ forall o', occurs sig l o' -> o <= o'.
(** the first bytes of a sample that identify it *)
Definition signature_of (sample sig : bytes) : Prop := (exists r, sample = sig ++ r) /\ lenN sig = N.min 256 (lenN sample).
