(** RecovSpec: what a recovery record of a RAR volume holds. *)
From Verif Require Import Base Crc.

(** sector number [k] of the volume written so far, zero padded *)
Definition sector (d : bytes) (k : nat) : bytes :=
  map (fun j => nth (512 * k + j) d x00) (seq 0 512).
Definition sector_count (d : bytes) : nat := (length d + 511) / 512.
(** two bytes per sector: the low 16 bits of the inverted CRC-32 *)
Definition sector_sum (d : bytes) (k : nat) : bytes := le 2 ((4294967295 - crc32 (sector d k)) mod 65536).
(** the sectors of slice [i] *)
Definition slice_sectors (rs i m : nat) : list nat := filter (fun k => Nat.eqb (k mod rs) i) (seq 0 m).
Definition xor_bytes (l : list byte) : byte := n2b (fold_right (fun b a => N.lxor (b2n b) a) 0 l).
Definition parity_sector (rs : nat) (d : bytes) (i : nat) : bytes :=
  map (fun j => xor_bytes (map (fun k => nth (512 * k + j) d x00) (slice_sectors rs i (sector_count d))))
      (seq 0 512).
(** [ds]: number of sectors the record has room for *)
Definition rr_data (rs ds : nat) (d : bytes) : bytes :=
  concat (map (sector_sum d) (seq 0 (sector_count d))) ++
  repeat x00 (2 * (ds - sector_count d)) ++
  concat (map (parity_sector rs d) (seq 0 rs)).
