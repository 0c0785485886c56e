(** Combine: rescene/crc32combine.py *)
From Verif Require Import Base Crc.

(** crc32combine.py:98-106 matrix_times: the rows are taken in order, so that running out of rows
    is the IndexError of the next set bit *)
Fixpoint matrix_loop (rows : list N) (vector number_sum : N) : result N :=
  if vector =? 0 then Ok number_sum else
  match rows with
  | [] => Err IndexError
  | row :: rows =>
    matrix_loop rows (N.land (N.shiftr vector 1) 0x7FFFFFFF)
      (if N.land vector 1 =? 0 then number_sum else N.lxor number_sum row)
  end.
Definition matrix_times (matrix : list N) (vector : N) : result N := matrix_loop matrix vector 0.

(** crc32combine.py:109, 112, 118, 127: [matrix_times(m, m[n]) for n in range(0, 32)] *)
Definition matrix_square (m : list N) : result (list N) := mapR (matrix_times m) (takeN 32 m).

(** crc32combine.py:95: CRC-32 polynomial, 1, 2, 4, ... 2**30 *)
Definition one_bit : list N := CRC_POLY :: map (fun i => 2 ^ N.of_nat i) (seq 0 31).

(** crc32combine.py:116-131: the loop body does the same twice, with the two matrices swapped.
    [fuel]: one unit for each bit of [len2]. *)
Fixpoint combine_loop (fuel : nat) (m : list N) (crc1 len2 : N) : result N :=
  if len2 =? 0 then Ok crc1 else
  match fuel with
  | O => Err OutOfFuel
  | S fuel =>
    do m <- matrix_square m;
    do crc1 <- (if N.land len2 1 =? 0 then Ok crc1 else matrix_times m crc1);
    combine_loop fuel m crc1 (N.shiftr len2 1)
  end.

(** crc32combine.py:86-134 crc32_combine, [len2] not negative *)
Definition crc32_combine (crc1 crc2 len2 : N) : result N :=
  if len2 =? 0 then Ok crc1 else
  do even <- matrix_square one_bit;
  do odd <- matrix_square even;
  do crc1 <- combine_loop (N.size_nat len2) odd crc1 len2;
  Ok (N.lxor crc1 crc2).
