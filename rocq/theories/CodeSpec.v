(** CodeSpec: UTF-16 and the MS-DOS time format. *)
From Verif Require Import Base.

Definition scalar (c : N) : Prop := c < 0xD800 \/ 0xE000 <= c < 0x110000.
Definition utf16_1 (c : N) : list N :=
  if c <? 0x10000 then [c] else [0xD800 + (c - 0x10000) / 1024; 0xDC00 + (c - 0x10000) mod 1024].
Definition utf16 (t : text) : list N := concat (map utf16_1 t).

(** year, month, day, hour, minute, half seconds: 7, 4, 5, 5, 6 and 5 bits *)
Definition dos_ok (y mo d h mi s2 : N) : Prop :=
  1980 <= y < 2108 /\ mo < 16 /\ d < 32 /\ h < 32 /\ mi < 64 /\ s2 < 32.
Definition dos_stamp (y mo d h mi s2 : N) : N :=
  s2 + 32 * (mi + 64 * (h + 32 * (d + 32 * (mo + 16 * (y - 1980))))).
