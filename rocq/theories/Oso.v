(** Oso: rescene/osohash.py on an ordinary file *)
From Verif Require Import Base Rar.

(** osohash.py:95-100: the loop over the 8 byte words of both buffers.  [begin] and [end_] are read from
    one word at a time; struct.error if a word is not complete. *)
Fixpoint hash_loop (k : nat) (index : N) (begin end_ : bytes) (h : N) : result N :=
  match k with
  | O => Ok h
  | S k =>
    do a <- unpack 8 begin index;
    let h := N.land (h + a) 0xFFFFFFFFFFFFFFFF in
    do b <- unpack 8 end_ index;
    let h := N.land (h + b) 0xFFFFFFFFFFFFFFFF in
    hash_loop k (index + 8) begin end_ h
  end.

(** osohash.py:60-66 _length and 68-102 _osorg_hash on a file positioned at its start: hash and size *)
Definition osorg_hash (file : bytes) : result (text * N) :=
  let filesize := lenN file in
  if filesize <? 65536 then Err ValueError else
  let begin := takeN 65536 file in
  let end_ := dropN (filesize - 65536) file in
  do h <- hash_loop (N.to_nat 8192) 0 begin (takeN 65536 end_) filesize;
  Ok (hex16 h, filesize).
