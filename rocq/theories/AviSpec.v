(** AviSpec: what an AVI file looks like: lists and chunks, which chunks hold the data of streams, and where the data
    of a stream is. *)
From Verif Require Import Base StrmSpec Mp3Spec.

(** ** Lists and chunks *)
(** The header of a list, with the size it says; a chunk with its data and padding. *)
Inductive item := Lst (ty : bytes) (size : N) (name : bytes) | Chk (cc data pad : bytes).
Definition item_bytes (i : item) : bytes :=
  match i with
  | Lst ty size name => ty ++ le 4 size ++ name
  | Chk cc data pad => cc ++ le 4 (lenN data) ++ data ++ pad
  end.
Definition file_of (its : list item) : bytes := concat (map item_bytes its).
(** letters, digits and spaces *)
Definition fourcc (cc : bytes) : Prop :=
  lenN cc = 4 /\ Forall (fun b => b2n b = 32 \/ 48 <= b2n b <= 57 \/ 65 <= b2n b <= 90 \/ 97 <= b2n b <= 122) cc.
Definition item_ok (i : item) : Prop :=
  match i with
  | Lst ty size name => (ty = bstr "RIFF" \/ ty = bstr "LIST") /\ size < 2 ^ 32 /\ lenN name = 4
  | Chk cc data pad => fourcc cc /\ cc <> bstr "RIFF" /\ cc <> bstr "LIST" /\ lenN data < 2 ^ 32 /\ lenN pad = lenN data mod 2
  end.
(** A list is within the file.  The size of a RIFF list can be anything. *)
Definition lists_fit (its : list item) : Prop :=
  forall a size name b, its = a ++ Lst (bstr "LIST") size name :: b -> 8 + size <= lenN (file_of (Lst (bstr "LIST") size name :: b)).

(** ** Streams *)
(** the names of chunks with data of a stream begin with its number, two digits *)
Definition stream_no (cc : bytes) : option N :=
  match map b2n cc with
  | a :: b :: _ => if ((48 <=? a) && (a <=? 57)) && ((48 <=? b) && (b <=? 57)) then Some (10 * (a - 48) + (b - 48)) else None
  | _ => None
  end.
Definition has_stream (n : N) (its : list item) : Prop := exists cc data pad, In (Chk cc data pad) its /\ stream_no cc = Some n.
Definition piece (n : N) (i : item) : bytes :=
  match i with
  | Lst _ _ _ => []
  | Chk cc data _ => match stream_no cc with Some k => if k =? n then data else [] | None => [] end
  end.
Definition data_of (n : N) (its : list item) : bytes := concat (map (piece n) its).

(** ** Samples *)
Definition name_of (i : item) : bytes := match i with Lst _ _ name => name | Chk cc _ _ => cc end.
(** There is a list movi, no data of streams before it, some data in each stream. *)
Definition avi_ok (its : list item) : Prop :=
  Forall item_ok its /\ lists_fit its /\ (forall i, In i its -> name_of i <> bstr "SRSF" /\ name_of i <> bstr "SRST") /\
  (exists a size b, its = a ++ Lst (bstr "LIST") size (bstr "movi") :: b /\ forall n, ~ has_stream n a) /\
  forall n, has_stream n its -> data_of n its <> [].
(** the same lists and chunks, with other data of the streams *)
Inductive same_shape : item -> item -> Prop :=
| same_item i : same_shape i i
| same_chunk cc n d d' pad : stream_no cc = Some n -> lenN d = lenN d' -> same_shape (Chk cc d pad) (Chk cc d' pad).

(** ** The main file *)
(** Less than 8 bytes at the end are not looked at.  Offsets are below 2^63. *)
Definition movie_ok (f : bytes) (ms : list item) : Prop :=
  Forall item_ok ms /\ lenN f <= 2 ^ 63 /\ exists r, f = file_of ms ++ r /\ lenN r < 8.
(** data of stream [n] beginning with [d] at [o], which is after [d1] in a chunk *)
Definition held (n : N) (d : bytes) (ms : list item) (o : N) (d1 : bytes) : Prop :=
  exists pre cc d2 pad post, ms = pre ++ Chk cc (d1 ++ d2) pad :: post /\ stream_no cc = Some n /\ d2 <> [] /\
  o = lenN (file_of pre) + 8 + lenN d1 /\ starts d (d2 ++ data_of n post).
(** Before that, nothing begins like the first bytes of [d], as far as the chunk goes. *)
Definition first_held (n : N) (d : bytes) (ms : list item) (o : N) (d1 : bytes) : Prop :=
  exists pre cc d2 pad post, ms = pre ++ Chk cc (d1 ++ d2) pad :: post /\ stream_no cc = Some n /\ d2 <> [] /\
  o = lenN (file_of pre) + 8 + lenN d1 /\ starts d (d2 ++ data_of n post) /\
  forall a b, data_of n pre ++ d1 = a ++ b -> b <> [] -> ~ starts (takeN (lenN (takeN 256 d)) (b ++ d2)) (takeN 256 d).
(** Each stream of the sample is in the main file, at [at_]; the first of them, at [o], from the begin of a chunk on. *)
Definition in_movie (P : N -> bytes -> list item -> N -> bytes -> Prop) (its ms : list item) (at_ : N -> N) (o : N) : Prop :=
  (forall n, has_stream n its -> exists d1, P n (data_of n its) ms (at_ n) d1 /\ (at_ n = o -> d1 = [])) /\
  (exists n, has_stream n its /\ at_ n = o) /\ forall n, has_stream n its -> o <= at_ n.
(** Streams that are in the main file before [o] are in it behind [o] too. *)
Definition goes_on (ms : list item) (o : N) : Prop :=
  forall pre post n, ms = pre ++ post -> lenN (file_of pre) + 8 = o -> has_stream n pre -> has_stream n post.
