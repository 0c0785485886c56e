(** Bitflip: the search for a wrong bit or byte by the CRC of the file (scripts/bitflip.py). *)
From Verif Require Import Base Crc Combine.

(** data[a:b] with numbers that are not negative *)
Definition part (a b : N) (data : bytes) : bytes := takeN (b - a) (dropN a data).
(** the dict with the CRC and length of the parts *)
Definition table : Type := list ((N * N) * (N * N)).
Fixpoint tget (k : N * N) (t : table) : result (N * N) :=
  match t with
  | [] => Err KeyError
  | (j, v) :: t => if (fst j =? fst k) && (snd j =? snd k) then Ok v else tget k t
  end.
(** range(start, stop, skip) *)
Fixpoint py_range (fuel : nat) (start stop skip : N) : list N :=
  match fuel with
  | O => []
  | S fuel => if start <? stop then start :: py_range fuel (start + skip) stop skip else []
  end.
Definition range_by (start stop skip : N) : result (list N) := if skip =? 0 then Err ValueError else Ok (py_range (N.to_nat (stop - start)) start stop skip).
(** bitflip.py:79-94 precalculate; a later entry comes first in the list *)
Fixpoint precalc_loop (data : bytes) (range_start range_end skip : N) (l : list N) (t : table) : table :=
  match l with
  | [] => ((range_start, range_end), (crc32 (part range_start range_end data), range_end - range_start)) :: t
  | start :: l =>
    let end_ := N.min (start + skip) range_end in
    precalc_loop data range_start range_end skip l
      (((end_, range_end), (crc32 (part end_ range_end data), range_end - end_)) ::
       ((range_start, start), (crc32 (part range_start start data), start - range_start)) :: t)
  end.
Definition precalculate (data : bytes) (range_start range_end skip : N) : result table :=
  do l <- range_by range_start (range_end + 1) skip;
  Ok (precalc_loop data range_start range_end skip l []).
(** crc32combine.crc32_combine *)
Definition comb (crc1 crc2 len2 : N) : result N := do c <- crc32_combine crc1 crc2 len2; Ok (N.land c MASK32).
Definition assert_b (enabled b : bool) : result unit := if enabled && negb b then Err AssertionError else Ok tt.
(** bitflip.py:139-152 validate_table *)
Fixpoint validate_loop (range_start range_end actual : N) (t : table) (l : list N) : result unit :=
  match l with
  | [] => Ok tt
  | s :: l =>
    let s := N.min s range_end in
    do x <- tget (range_start, s) t;
    do y <- tget (s, range_end) t;
    do c <- comb (fst x) (fst y) (snd y);
    do _ <- assert_b true (actual =? c);
    if s =? range_end then Ok tt else validate_loop range_start range_end actual t l
  end.
Definition validate_table (data : bytes) (range_start range_end skip : N) (t : table) : result unit :=
  do l <- range_by range_start (range_end + skip) skip;
  validate_loop range_start range_end (crc32 (part range_start range_end data)) t l.

(** bitflip, or one of options.bytecheck and options.bitswitch; the first of these goes before the other *)
Inductive mode := MBit | MByte | MSwitch.
Definition nth_byte (cur : N) (data : bytes) : N := match dropN cur data with b :: _ => b2n b | [] => 0 end.
(** the values tried for a byte, in order *)
Definition tries (m : mode) (b : N) : list N :=
  match m with
  | MBit => map (fun i => N.lxor b (N.shiftr 0x80 i)) [0; 1; 2; 3; 4; 5; 6; 7]
  | MByte => map N.of_nat (seq 0 256)
  | MSwitch => map (fun i => N.lxor b (N.shiftl 0x3 i)) [0; 1; 2; 3; 4; 5; 6]
  end.
(** bitflip.py:229-268 the loop over the values *)
Fixpoint try_values (expected ball_crc aall_crc aall_len : N) (l : list N) : result (option N) :=
  match l with
  | [] => Ok None
  | v :: l =>
    do test_crc <- comb (zcrc32 [n2b v] ball_crc) aall_crc aall_len;
    if test_crc =? expected then Ok (Some v) else try_values expected ball_crc aall_crc aall_len l
  end.
(** what is kept from byte to byte: part_start, part_end, crc_before_partition, crc_before_len, crc_after_partition
    and crc_after_len *)
Record state := mkSt { s_start : N; s_end : N; s_before : N; s_blen : N; s_after : N; s_alen : N }.
Section Search.
  Variables (asserts : bool) (m : mode) (expected : N) (data : bytes) (range_start range_end skip : N) (t : table).
  Let crc_begin : N := crc32 (part 0 range_start data).
  Let crc_begin_len : N := lenN (part 0 range_start data).
  Let crc_end : N := crc32 (dropN range_end data).
  Let crc_end_len : N := lenN (dropN range_end data).
  (** bitflip.py:184-201 a new partition starts *)
  Definition new_part (skip_count : N) : result state :=
    let part_start := range_start + skip_count in
    do x <- tget (range_start, part_start) t;
    do before <- comb crc_begin (fst x) (snd x);
    do _ <- assert_b asserts (before =? crc32 (part 0 part_start data));
    let part_end := N.min (part_start + skip) range_end in
    do y <- tget (part_end, range_end) t;
    do after <- comb (fst y) crc_end crc_end_len;
    do _ <- assert_b asserts (after =? crc32 (dropN part_end data));
    Ok (mkSt part_start part_end before (crc_begin_len + snd x) after (snd y + crc_end_len)).
  (** bitflip.py:181-279: [n] bytes of the range are left; the position and value of the change *)
  Fixpoint search (n : nat) (cur skip_count : N) (s : state) : result (option (N * N)) :=
    match n with
    | O => Ok None
    | S n =>
      do s <- (if skip_count mod skip =? 0 then new_part skip_count else Ok s);
      let bpart_len := cur - s_start s in
      do ball_crc <- comb (s_before s) (crc32 (part (s_start s) cur data)) bpart_len;
      do _ <- assert_b asserts (s_blen s + bpart_len =? lenN (part 0 cur data));
      do _ <- assert_b asserts (ball_crc =? crc32 (part 0 cur data));
      let apart := part (cur + 1) (s_end s) data in
      let apart_len := s_end s - cur - 1 in
      do _ <- assert_b asserts (apart_len =? lenN apart);
      do aall_crc <- comb (crc32 apart) (s_after s) (s_alen s);
      let aall_len := apart_len + s_alen s in
      do _ <- assert_b asserts (aall_crc =? crc32 (dropN (cur + 1) data));
      do r <- try_values expected ball_crc aall_crc aall_len (tries m (nth_byte cur data));
      match r with
      | Some v => Ok (Some (cur, v))
      | None => search n (cur + 1) (skip_count + 1) s
      end
    end.
End Search.
(** bitflip.py:96-279 main with the range of the arguments, or the whole file: the file that is written, if any.  The range
    is not negative; a range that is not valid is only told.  [asserts]: without -O. *)
Definition bitflip (asserts : bool) (m : mode) (skip expected : N) (range : option (N * N)) (data : bytes) : result (option bytes) :=
  let '(range_start, range_end) := match range with Some (a, b) => (a, N.min b (lenN data)) | None => (0, lenN data) end in
  do t <- precalculate data range_start range_end skip;
  do _ <- (if asserts then validate_table data range_start range_end skip t else Ok tt);
  let s := mkSt 0 0 (crc32 (part 0 range_start data)) 0 (crc32 (dropN range_end data)) (lenN (dropN range_end data)) in
  do r <- search asserts m expected data range_start range_end skip t (N.to_nat (range_end - range_start)) range_start 0 s;
  Ok (match r with
      | Some (cur, v) => Some (part 0 cur data ++ [n2b v] ++ part (cur + 1) (lenN data) data)
      | None => None
      end).
