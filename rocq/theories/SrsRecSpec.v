(** SrsRecSpec: layout of the records in an SRS file, written from the field lists in the comments of the format. *)
From Verif Require Import Base.

(** flags, application name, sample name, size, CRC *)
Definition file_layout (flags : N) (app name : bytes) (size crc : N) : bytes :=
  le 2 flags ++ le 2 (lenN app) ++ app ++ le 2 (lenN name) ++ name ++ le 8 size ++ le 4 crc.
(** flags, track number in 2 or 4 bytes, length in 4 or 8 bytes, offset, signature *)
Definition track_layout (wide big : bool) (flags number length offset : N) (sig : bytes) : bytes :=
  le 2 flags ++ le (if wide then 4 else 2) number ++ le (if big then 8 else 4) length ++ le 8 offset ++
  le 2 (lenN sig) ++ sig.
(** what comes after the last slash *)
Definition after_slash (path name : text) : Prop :=
  ~ In 47 name /\ (path = name \/ exists d, path = d ++ 47 :: name).
(** 7 bits a byte, most significant first *)
Definition base128 (l : bytes) (n : N) : Prop :=
  exists a b c d, map b2n l = [a; b; c; d] /\ a < 128 /\ b < 128 /\ c < 128 /\ d < 128 /\
  n = a * 2 ^ 21 + b * 2 ^ 14 + c * 2 ^ 7 + d.
