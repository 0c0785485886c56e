(** Ebml: EBML numbers and lacing (resample/ebml.py). *)
From Verif Require Import Base.

(** ebml.py:46-57 GetUIntLength; the loop goes over the bits from the highest *)
Fixpoint uint_length_loop (descriptor : N) (l : list N) : N :=
  match l with
  | [] => 0
  | i :: l => if negb (N.land descriptor (N.shiftr 0x80 i) =? 0) then i + 1 else uint_length_loop descriptor l
  end.
Definition get_uint_length (descriptor : N) : N := uint_length_loop descriptor [0; 1; 2; 3; 4; 5; 6; 7].

(** struct.unpack_from(">B", buff, offset) and unpack(stream.read(1)) *)
Definition byte_at (buff : bytes) (offset : N) : result N := unpack 1 buff offset.

(** size = (size << 8) + byte, for the bytes at the next offsets *)
Fixpoint uint_loop (buff : bytes) (n : nat) (offset size : N) : result N :=
  match n with
  | O => Ok size
  | S n => do b <- byte_at buff offset; uint_loop buff n (offset + 1) (N.shiftl size 8 + b)
  end.
(** ebml.py:65-74 GetEbmlUInt *)
Definition get_ebml_uint (buff : bytes) (offset count : N) : result N :=
  do b <- byte_at buff offset;
  uint_loop buff (N.to_nat (count - 1)) (offset + 1) (N.land b (N.shiftr 0xFF count)).
(** ebml.py:76-87 GetEbmlUIntStream; the stream stands at [pos] *)
Definition get_ebml_uint_stream (stream : bytes) (pos : N) : result (N * N) :=
  do first_byte <- byte_at stream pos;
  let consumed := get_uint_length first_byte in
  do size <- uint_loop stream (N.to_nat (consumed - 1)) (pos + 1) (N.land first_byte (N.shiftr 0xFF consumed));
  Ok (size, consumed).

(** ebml.py:89-103 MakeEbmlUInt; length_descriptor is unbound when no mask is large enough *)
Fixpoint find_mask (number : N) (l : list N) : result (N * N) :=
  match l with
  | [] => Err UnboundLocal
  | i :: l =>
    let length_mask := N.shiftl 1 (i * 8 - i) in
    if number <? length_mask then Ok (i, N.lor number length_mask) else find_mask number l
  end.
Definition make_ebml_uint (number : N) : result bytes :=
  do r <- find_mask number [1; 2; 3; 4; 5; 6; 7];
  let '(descriptor, number) := r in
  Ok (map (fun i => n2b (N.land (N.shiftr number ((descriptor - (N.of_nat i + 1)) * 8)) 0xFF))
          (seq 0 (N.to_nat descriptor))).

(** ebml.py:180-184 EbmlLaceType *)
Definition LACE_NONE : N := 0.
Definition LACE_XIPH : N := 2.
Definition LACE_FIXED : N := 4.
Definition LACE_EBML : N := 6.

Definition sumZ (l : list Z) : Z := fold_right Z.add 0%Z l.
(** ebml.py:125-129: add bytes until one is not 255.  The fuel is never used up: there is a byte for every step. *)
Fixpoint xiph_size (fuel : nat) (stream : bytes) (pos : N) (size : N) : result (N * N) :=
  match fuel with
  | O => Err OutOfFuel
  | S fuel =>
    do b <- byte_at stream pos;
    if b =? 0xFF then xiph_size fuel stream (pos + 1) (size + b) else Ok (size + b, pos + 1)
  end.
(** ebml.py:118-153 the loop over the frames, from frame [i] on.  [sizes] are the sizes so far, [consumed] the
    bytes read so far. *)
Fixpoint lace_loop (n : nat) (lace count : N) (data_length : Z) (stream : bytes) (pos : N)
    (i : N) (sizes : list Z) (consumed : N) : result (list Z * N) :=
  match n with
  | O => Ok (sizes, consumed)
  | S n =>
    let go_from pos size k := lace_loop n lace count data_length stream pos (i + 1) (sizes ++ [size]) (consumed + k) in
    let go size k := go_from (pos + k) size k in
    let remaining := (data_length - Z.of_N consumed - sumZ sizes)%Z in
    if lace =? LACE_NONE then go data_length 0
    else if lace =? LACE_FIXED then go (data_length / Z.of_N count)%Z 0
    else if lace =? LACE_XIPH then
      if i + 1 <? count then
        do r <- xiph_size (S (List.length stream)) stream pos 0;
        go (Z.of_N (fst r)) (snd r - pos)
      else go remaining 0
    else
      if i =? 0 then
        (* a byte is read if it says 0 too *)
        do r <- get_ebml_uint_stream stream pos; go_from (pos + N.max 1 (snd r)) (Z.of_N (fst r)) (snd r)
      else if i + 1 <? count then
        do r <- get_ebml_uint_stream stream pos;
        let '(length, bc) := r in
        if bc =? 0 then Err AssertionError else
        go (last sizes 0 + (Z.of_N length - (2 ^ (Z.of_N bc * 8 - (Z.of_N bc + 1)) - 1)))%Z bc
      else go remaining 0
  end.
(** ebml.py:105-155 GetBlockFrameLengths *)
Definition block_frame_lengths (lace : N) (data_length : Z) (stream : bytes) (pos : N) : result (list Z * N) :=
  if lace =? LACE_NONE then lace_loop 1 lace 1 data_length stream pos 0 [] 0
  else
    do b <- byte_at stream pos;
    lace_loop (N.to_nat (b + 1)) lace (b + 1) data_length stream (pos + 1) 0 [] 1.
