(** Crc: zlib.crc32 and the functions built on it. *)
From Verif Require Import Base.

Definition CRC_POLY : N := 0xEDB88320.
Definition MASK32 : N := 0xFFFFFFFF.

(** zlib.crc32, bit by bit (reflected polynomial 0xEDB88320).  zlib itself is C code outside
    /repo; this is the definition of CRC-32 it implements. *)
Definition crc_bit (c : N) : N :=
  if N.odd c then N.lxor (N.div2 c) CRC_POLY else N.div2 c.
Definition crc_byte (c : N) (b : byte) : N := N.iter 8 crc_bit (N.lxor c (b2n b)).
Definition crc_upd (c : N) (l : bytes) : N := fold_left crc_byte l c.
(** zlib.crc32(data, start) *)
Definition zcrc32 (data : bytes) (start : N) : N :=
  N.lxor (crc_upd (N.lxor start MASK32) data) MASK32.
Definition crc32 (data : bytes) : N := zcrc32 data 0.

(** utility.py:517-529 calculate_crc32: the file is read 65536 bytes at a time.
    [fuel] bounds the number of reads; every non-empty read takes at least one byte. *)
Fixpoint crc_file_loop (fuel : nat) (rest : bytes) (crc : N) : result N :=
  match fuel with
  | O => Err OutOfFuel
  | S fuel =>
    match takeN 65536 rest with
    | [] => Ok (N.land crc MASK32)
    | x => crc_file_loop fuel (dropN 65536 rest) (zcrc32 x crc)
    end
  end.
Definition calculate_crc32 (data : bytes) : result N :=
  crc_file_loop (S (List.length data)) data 0.
