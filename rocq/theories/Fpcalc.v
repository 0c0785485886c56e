(** Fpcalc: what of a music file is fingerprinted (resample/fpcalc.py fingerprint).  fpcalc and the reading of MP3 tags are given. *)
From Verif Require Import Base.

(** fpcalc.py:130-143: batches of 64 KiB, with 3 bytes of the next one.  The fuel is never used up *)
Definition BATCH : N := 0x10000.
Fixpoint search (fuel : nat) (data : bytes) (current : N) : result (option N) :=
  match fuel with
  | O => Err OutOfFuel
  | S fuel =>
    let part := sub current (BATCH + 3) data in
    if lenN part =? 0 then Ok None
    else
      match find_sub Byte.eqb (bstr "Xing") part, find_sub Byte.eqb (bstr "LAME") part with
      | None, None => search fuel data (current + BATCH)
      | Some a, None => Ok (Some (current + a))
      | None, Some b => Ok (Some (current + b))
      | Some a, Some b => Ok (Some (current + N.min a b))
      end
  end.
(** fpcalc.py:128-147 *)
Definition string_index (data : bytes) : result N :=
  do r <- search (N.to_nat (lenN data / BATCH) + 2) data 0;
  match r with Some i => Ok i | None => Err ValueError end.
(** bytes.rfind(0xFF, 0, end) *)
Fixpoint rfind_ff (l : bytes) (end_ : nat) : option nat :=
  match end_ with
  | O => None
  | S e => match nth_error l e with Some xff => Some e | _ => rfind_ff l e end
  end.
(** fpcalc.py:153-158: [sync_index] is -1 for None; the byte taken for the next one is the one found.  The fuel is never used up *)
Fixpoint sync_loop (fuel : nat) (stack : bytes) (sync_index : option nat) : result (option nat) :=
  match fuel with
  | O => Err OutOfFuel
  | S fuel =>
    match sync_index with
    | None => Ok None
    | Some s =>
      match nth_error stack s with
      | None => Err TypeError (* ord of nothing *)
      | Some next_byte => if N.land (b2n next_byte) 0xE0 =? 0xE0 then Ok (Some s) else sync_loop fuel stack (rfind_ff stack s)
      end
    end
  end.
(** fpcalc.py:149-164 the data that is written; a place before the start of the file is an error *)
Definition stripped (data : bytes) : result bytes :=
  do i <- string_index data;
  if i <? 0x100 then Err OSError
  else
    let stack := sub (i - 0x100) 0x100 data in
    do s <- sync_loop 257 stack (rfind_ff stack (length stack - 1));
    let sync_start := (Z.of_N i - (0x100 + match s with Some s => Z.of_nat s | None => -1 end))%Z in
    if (sync_start <? 0)%Z then Err OSError else Ok (dropN (Z.to_N sync_start) data).

(** fpcalc.py:76-93 the output of fpcalc by lines *)
Record heard := mkHeard { h_duration : bytes; h_print : bytes; h_bad : bool }.
Definition line_of (h : heard) (line : bytes) : heard :=
  if starts_with Byte.eqb (bstr "DURATION=") line then mkHeard (dropN 9 line) (h_print h) (h_bad h)
  else if starts_with Byte.eqb (bstr "FINGERPRINT=") line then mkHeard (h_duration h) (dropN 12 line) (h_bad h)
  else if starts_with Byte.eqb (bstr "ERROR: couldn't open the file") line then mkHeard (h_duration h) (h_print h) true
  else if starts_with Byte.eqb (bstr "ERROR: couldn't find stream") line then mkHeard (h_duration h) (h_print h) true
  else h.
Definition parse (lines : list bytes) : option (bytes * bytes) :=
  let h := fold_left line_of lines (mkHeard [] [] false) in
  if h_bad h || (lenN (h_duration h) =? 0) || (lenN (h_print h) =? 0) then None else Some (h_duration h, h_print h).

Section Runs.
(** the lines that fpcalc prints for a file with this data; fpcalc.py:112-124 the music data of the file *)
Variables (fpcalc : bytes -> list bytes) (music : bytes -> result bytes).
(** fpcalc.py:46-196; the numbers of temporary files left: just the copy of a file without ASCII name may stay, the names of temporary files are ASCII.  The fuel is never used up *)
Fixpoint fingerprint (fuel : nat) (ascii : bool) (data : bytes) (recursive : N) : result (bytes * bytes) * N :=
  match fuel with
  | O => (Err OutOfFuel, 0)
  | S fuel =>
    let copies := if ascii then 0 else 1 in
    match parse (fpcalc data) with
    | Some r => (Ok r, 0)
    | None =>
      if 1 <? recursive then (Err ValueError, copies)
      else
        match (if recursive + 1 <? 2 then music data else stripped data) with
        | Err e => (Err e, copies)
        | Ok d =>
          match fingerprint fuel true d (recursive + 1) with
          | (Ok r, n) => (Ok r, n)
          | (Err e, n) => (Err e, n + copies)
          end
        end
    end
  end.
End Runs.
