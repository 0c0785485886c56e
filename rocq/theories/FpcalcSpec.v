(** FpcalcSpec: the parts of a music file that are fingerprinted. *)
From Verif Require Import Base.

Definition at_string (data : bytes) (i : N) : Prop := sub i 4 data = bstr "Xing" \/ sub i 4 data = bstr "LAME".
Definition first_at (data : bytes) (i : N) : Prop := at_string data i /\ forall j, j < i -> ~ at_string data j.
(** the last byte 0xFF of those from [a] to before [b] is at [p] *)
Definition last_ff (data : bytes) (a b p : N) : Prop := a <= p < b /\ sub p 1 data = [xff] /\ forall q, p < q < b -> sub q 1 data <> [xff].
Definition no_ff (data : bytes) (a b : N) : Prop := forall q, a <= q < b -> sub q 1 data <> [xff].
(** a frame of MP3 data starts with 11 bits that are set *)
Definition sync_at (data : bytes) (p : N) : Prop := exists y, sub p 2 data = [xff; y] /\ 0xE0 <= b2n y.
(** what follows the given start in the last of the lines that have it *)
Definition last_with (start : string) (lines : list bytes) (x : bytes) : Prop :=
  exists a b, lines = a ++ (bstr start ++ x) :: b /\ forall l y, In l b -> l <> bstr start ++ y.
Definition says_error (lines : list bytes) : Prop :=
  exists y, In (bstr "ERROR: couldn't open the file" ++ y) lines \/ In (bstr "ERROR: couldn't find stream" ++ y) lines.
(** a duration and a fingerprint, and no error *)
Definition printed (lines : list bytes) (duration fp : bytes) : Prop :=
  ~ says_error lines /\ duration <> [] /\ fp <> [] /\ last_with "DURATION=" lines duration /\ last_with "FINGERPRINT=" lines fp.
