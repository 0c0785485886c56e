(** WmvSpec: what a WMV (ASF) file looks like: objects, packets, payloads; which payloads hold the data of streams, and
    where the data of a stream is. *)
From Verif Require Import Base StrmSpec Mp3Spec.

(** ** Objects *)
(** 75B22630-668E-11CF-A6D9-00AA0062CE6C is [guid 0x75B22630 0x668E 0x11CF 0xA6D9 0x00AA0062CE6C] *)
Definition guid (a b c d e : N) : bytes := le 4 a ++ le 2 b ++ le 2 c ++ be 2 d ++ be 6 e.
Definition g_header : bytes := guid 0x75B22630 0x668E 0x11CF 0xA6D9 0x00AA0062CE6C.
Definition g_data : bytes := guid 0x75B22636 0x668E 0x11CF 0xA6D9 0x00AA0062CE6C.
Definition g_stream : bytes := guid 0xB7DC0791 0xA9B7 0x11CF 0x8EE6 0x00C00C205365.
Definition g_file : bytes := guid 0x8CABDCA1 0xA947 0x11CF 0x8EE4 0x00C00C205365.
(** what an SRS adds *)
Definition g_ours : list bytes := [bstr "SRSFSRSFSRSFSRSF"; bstr "SRSTSRSTSRSTSRST"; bstr "PADDINGBYTESDATA"].
(** GUID and contents; the header object, which holds others *)
Definition plain : Type := bytes * bytes.
Inductive obj := Obj (p : plain) | Head (six : bytes) (kids : list plain).
Definition plain_bytes (p : plain) : bytes := fst p ++ le 8 (24 + lenN (snd p)) ++ snd p.
Definition kids_bytes (l : list plain) : bytes := concat (map plain_bytes l).
Definition obj_bytes (o : obj) : bytes :=
  match o with
  | Obj p => plain_bytes p
  | Head six kids => g_header ++ le 8 (30 + lenN (kids_bytes kids)) ++ six ++ kids_bytes kids
  end.
Definition objs_bytes (l : list obj) : bytes := concat (map obj_bytes l).
Definition plain_ok (p : plain) : Prop :=
  lenN (fst p) = 16 /\ fst p <> g_header /\ fst p <> g_data /\ 24 + lenN (snd p) < 2 ^ 64 /\
  (fst p = g_stream -> 50 <= lenN (snd p)) /\ (fst p = g_file -> 24 <= lenN (snd p)).
Definition obj_ok (o : obj) : Prop :=
  match o with
  | Obj p => plain_ok p /\ ~ In (fst p) g_ours
  | Head six kids => lenN six = 6 /\ Forall plain_ok kids /\ 30 + lenN (kids_bytes kids) < 2 ^ 64
  end.
Definition inside (o : obj) : list plain := match o with Obj p => [p] | Head _ kids => kids end.
(** the streams that are declared: four bits of the flags are taken for the number *)
Definition declared (l : list obj) : list N :=
  map (fun p => unle (sub 48 2 (snd p)) mod 16) (filter (fun p => beqb (fst p) g_stream) (flat_map inside l)).

(** ** Packets *)
(** how many bytes a field takes *)
Definition width (w : N) : nat := match w with 0 => 0 | 1 => 1 | 2 => 2 | _ => 4 end.
Definition fits (w v : N) : Prop := v < 256 ^ N.of_nat (width w).
(** The number of the media object and the offset into it are not looked at.  [Parts]: compressed payload data. *)
Inductive payload :=
| Whole (key : bool) (stream num off : N) (rep data : bytes)
| Parts (key : bool) (stream num off : N) (delta : byte) (parts : list bytes).
Record packet := mkPk {
  pk_ec : bytes; pk_multiple : bool;
  pk_wlen : N; pk_wseq : N; pk_wpad : N; pk_top : N;
  pk_wrep : N; pk_woff : N; pk_wnum : N; pk_wstream : N;
  pk_length : N; pk_seq : N; pk_padlen : N; pk_time : N; pk_duration : N;
  pk_payloads : list payload;
  pk_padding : bytes }.
Definition b2N (b : bool) : N := if b then 1 else 0.
Definition one (n : N) : bytes := [n2b n].
Definition pk_head (k : packet) : bytes :=
  one 0x82 ++ pk_ec k ++ one (b2N (pk_multiple k) + 2 * pk_wseq k + 8 * pk_wpad k + 32 * pk_wlen k + 128 * pk_top k) ++
  one (pk_wrep k + 4 * pk_woff k + 16 * pk_wnum k + 64 * pk_wstream k) ++
  le (width (pk_wlen k)) (pk_length k) ++ le (width (pk_wseq k)) (pk_seq k) ++ le (width (pk_wpad k)) (pk_padlen k) ++
  le 4 (pk_time k) ++ le 2 (pk_duration k) ++ (if pk_multiple k then one (128 + lenN (pk_payloads k)) else []).
Definition part_bytes (d : bytes) : bytes := one (lenN d) ++ d.
Definition begin_of (k : packet) (key : bool) (stream num off rep : N) : bytes :=
  one (stream + 128 * b2N key) ++ le (width (pk_wnum k)) num ++ le (width (pk_woff k)) off ++ le (width (pk_wrep k)) rep.
(** the pieces of data of a payload: the stream, what is before the data, the data *)
Definition piece : Type := N * bytes * bytes.
Definition p_stream (p : piece) : N := fst (fst p).
Definition p_head (p : piece) : bytes := snd (fst p).
Definition p_data (p : piece) : bytes := snd p.
Definition pieces (k : packet) (p : payload) : list piece :=
  match p with
  | Whole key stream num off rep data =>
    [(stream, begin_of k key stream num off (lenN rep) ++ rep ++ (if pk_multiple k then le 2 (lenN data) else []), data)]
  | Parts key stream num off delta parts =>
    match parts with
    | [] => []
    | d :: ds =>
      (stream, begin_of k key stream num off 1 ++ [delta] ++ (if pk_multiple k then le 2 (lenN (concat (map part_bytes parts))) else []) ++ one (lenN d), d)
      :: map (fun d => (stream, one (lenN d), d)) ds
    end
  end.
Definition pk_pieces (k : packet) : list piece := flat_map (pieces k) (pk_payloads k).
Definition pk_bytes (k : packet) : bytes := pk_head k ++ concat (map (fun p => p_head p ++ p_data p) (pk_pieces k)) ++ pk_padding k.
(** without the data and the padding *)
Definition pk_bare (k : packet) : bytes := pk_head k ++ concat (map p_head (pk_pieces k)).
Definition payload_ok (k : packet) (p : payload) : Prop :=
  match p with
  | Whole key stream num off rep data =>
    stream < 128 /\ fits (pk_wnum k) num /\ fits (pk_woff k) off /\ fits (pk_wrep k) (lenN rep) /\ (rep = [] \/ 8 <= lenN rep) /\
    (pk_multiple k = true -> lenN data < 2 ^ 16)
  | Parts key stream num off delta parts =>
    stream < 128 /\ fits (pk_wnum k) num /\ fits (pk_woff k) off /\ fits (pk_wrep k) 1 /\ parts <> [] /\ Forall (fun d => lenN d < 256) parts /\
    (pk_multiple k = true -> lenN (concat (map part_bytes parts)) < 2 ^ 16)
  end.
Definition packet_ok (k : packet) : Prop :=
  lenN (pk_ec k) = 2 /\ (pk_wlen k < 4 /\ pk_wseq k < 4 /\ pk_wpad k < 4 /\ pk_top k < 2) /\
  (pk_wrep k < 4 /\ pk_woff k < 4 /\ pk_wnum k < 4 /\ pk_wstream k < 4) /\
  (fits (pk_wlen k) (pk_length k) /\ fits (pk_wseq k) (pk_seq k) /\ fits (pk_wpad k) (pk_padlen k)) /\ pk_time k < 2 ^ 32 /\ pk_duration k < 2 ^ 16 /\
  Forall (payload_ok k) (pk_payloads k) /\
  (if pk_multiple k then 0 < lenN (pk_payloads k) < 64 else lenN (pk_payloads k) = 1) /\
  (if pk_wlen k =? 0 then lenN (pk_padding k) = pk_padlen k
   else pk_length k <= lenN (pk_bytes k) /\ lenN (pk_padding k) = pk_padlen k + (lenN (pk_bytes k) - pk_length k)).

(** ** Files *)
Record asf := mkAsf { a_before : list obj; a_id : bytes; a_two : bytes; a_packets : list packet; a_after : list obj }.
Definition packets_bytes (l : list packet) : bytes := concat (map pk_bytes l).
Definition data_head (a : asf) : bytes :=
  g_data ++ le 8 (50 + lenN (packets_bytes (a_packets a))) ++ a_id a ++ le 8 (lenN (a_packets a)) ++ a_two a.
Definition file_of (a : asf) : bytes := objs_bytes (a_before a) ++ data_head a ++ packets_bytes (a_packets a) ++ objs_bytes (a_after a).
(** There are packets, all of them of size [psize]. *)
Definition asf_ok (a : asf) (psize : N) : Prop :=
  Forall obj_ok (a_before a) /\ Forall obj_ok (a_after a) /\ lenN (a_id a) = 16 /\ lenN (a_two a) = 2 /\
  a_packets a <> [] /\ Forall packet_ok (a_packets a) /\ Forall (fun k => lenN (pk_bytes k) = psize) (a_packets a) /\
  50 + lenN (packets_bytes (a_packets a)) < 2 ^ 64.

(** ** Streams *)
Definition pieces_of (a : asf) : list piece := flat_map pk_pieces (a_packets a).
Definition has_stream (n : N) (l : list piece) : Prop := exists p, In p l /\ p_stream p = n.
Definition data_of (n : N) (l : list piece) : bytes := concat (map (fun p => if p_stream p =? n then p_data p else []) l).
(** declared, or with payloads *)
Definition is_track (n : N) (a : asf) : Prop := In n (declared (a_before a)) \/ has_stream n (pieces_of a).

(** ** Samples *)
(** Streams are declared once, before the data.  Packets up to the last are never as long as one packet is, all in all,
    when the data is taken away. *)
Definition wmv_ok (a : asf) : Prop :=
  exists psize, asf_ok a psize /\ NoDup (declared (a_before a)) /\ declared (a_after a) = [] /\
  forall l r, a_packets a = l ++ r -> 1 < lenN r -> lenN (concat (map pk_bare r)) <> psize.
(** the same packet with other data in the payloads *)
Definition shaped (k : packet) (x : bytes) : Prop :=
  exists ds, x = pk_head k ++ concat (map (fun pd => p_head (fst pd) ++ snd pd) (combine (pk_pieces k) ds)) ++ pk_padding k /\
  Forall2 (fun p d => lenN (p_data p) = lenN d) (pk_pieces k) ds.

(** ** The main file *)
(** Less than 24 bytes at the end are not looked at.  Offsets are below 2^63. *)
Definition movie_ok (f : bytes) (m : asf) : Prop :=
  (exists psize, asf_ok m psize) /\ lenN f < 2 ^ 63 /\ exists r, f = file_of m ++ r /\ lenN r < 24.
(** The place of a piece of data: its offset in the file less the length of the head of its packet. *)
Definition cell : Type := N * (N * bytes).
Fixpoint cells_of (o : N) (l : list piece) : list cell :=
  match l with [] => [] | p :: l => (o + lenN (p_head p), (p_stream p, p_data p)) :: cells_of (o + lenN (p_head p) + lenN (p_data p)) l end.
Fixpoint all_cells (o : N) (ks : list packet) : list cell :=
  match ks with [] => [] | k :: ks => cells_of o (pk_pieces k) ++ all_cells (o + lenN (pk_bytes k)) ks end.
Definition cells (m : asf) : list cell := all_cells (lenN (objs_bytes (a_before m) ++ data_head m)) (a_packets m).
Definition cell_data (n : N) (l : list cell) : bytes := concat (map (fun c => if fst (snd c) =? n then snd (snd c) else []) l).
(** data of stream [n] beginning with [d] at [o], which is after [d1] in a payload *)
Definition held (n : N) (d : bytes) (cs : list cell) (o : N) : Prop :=
  exists pre p d1 d2 post, cs = pre ++ (p, (n, d1 ++ d2)) :: post /\ d2 <> [] /\ o = p + lenN d1 /\ starts d (d2 ++ cell_data n post).
(** Before that, nothing begins like the first bytes of [d], as far as the payload goes. *)
Definition first_held (n : N) (d : bytes) (cs : list cell) (o : N) : Prop :=
  exists pre p d1 d2 post, cs = pre ++ (p, (n, d1 ++ d2)) :: post /\ d2 <> [] /\ o = p + lenN d1 /\ starts d (d2 ++ cell_data n post) /\
  forall a b, cell_data n pre ++ d1 = a ++ b -> b <> [] -> ~ starts (takeN (lenN (takeN 256 d)) (b ++ d2)) (takeN 256 d).
(** There is data in each stream of the sample [a] that has payloads, and it is in the movie [m]. *)
Definition in_movie (P : N -> bytes -> list cell -> N -> Prop) (a m : asf) (at_ : N -> N) : Prop :=
  forall n, has_stream n (pieces_of a) -> data_of n (pieces_of a) <> [] /\ P n (data_of n (pieces_of a)) (cells m) (at_ n).
