(** Mp4Spec: what an MP4 file looks like (ISO/IEC 14496-12): boxes, the tables of a track, and where the samples of
    its tracks are. *)
From Verif Require Import Base StrmSpec Mp3Spec.

(** ** Boxes *)
(** [header ty n h]: [h] is a header of a box of [n] bytes.  Some files have a box of 8 zero bytes. *)
Inductive header (ty : bytes) : N -> bytes -> Prop :=
| header_32 n : 8 <= n -> n < 2 ^ 32 -> header ty n (be 4 n ++ ty)
| header_64 n : 16 <= n -> n < 2 ^ 64 -> header ty n (be 4 1 ++ ty ++ be 8 n)
| header_zero : ty = repN 4 x00 -> header ty 8 (repN 8 x00).
Definition containers : list bytes := [bstr "moov"; bstr "trak"; bstr "mdia"; bstr "minf"; bstr "stbl"].
Definition special : list bytes := [bstr "mdat"; bstr "SRSF"; bstr "SRST"].
(** [boxes movie its b]: [b] is made of boxes; [its]: the types and the contents of those that are no containers, in
    the order of the file.  Boxes with the data of the tracks, mdat, can be anywhere in a [movie]. *)
Inductive boxes (movie : bool) : list (bytes * bytes) -> bytes -> Prop :=
| boxes_nil : boxes movie [] []
| boxes_leaf ty h d its bs : lenN ty = 4 -> ~ In ty (containers ++ special) -> header ty (lenN h + lenN d) h ->
    boxes movie its bs -> boxes movie ((ty, d) :: its) (h ++ d ++ bs)
| boxes_node ty h its b its' bs : In ty containers -> header ty (lenN h + lenN b) h ->
    boxes movie its b -> boxes movie its' bs -> boxes movie (its ++ its') (h ++ b ++ bs)
| boxes_mdat h d its bs : movie = true -> header (bstr "mdat") (lenN h + lenN d) h ->
    boxes movie its bs -> boxes movie its (h ++ d ++ bs).

(** ** Tables *)
Definition numbers (k : nat) (l : list N) : bytes := concat (map (be k) l).
(** the offset of each chunk *)
Inductive offsets_box : bytes * bytes -> list N -> Prop :=
| stco_box v l : lenN v = 4 -> lenN l < 2 ^ 32 -> Forall (fun o => o < 2 ^ 32) l ->
    offsets_box (bstr "stco", v ++ be 4 (lenN l) ++ numbers 4 l) l
| co64_box v l : lenN v = 4 -> lenN l < 2 ^ 32 -> Forall (fun o => o < 2 ^ 64) l ->
    offsets_box (bstr "co64", v ++ be 4 (lenN l) ++ numbers 8 l) l.
(** first chunk, samples in each chunk, description *)
Definition entry (e : N * N * N) : bytes := be 4 (fst (fst e)) ++ be 4 (snd (fst e)) ++ be 4 (snd e).
Inductive chunks_box : bytes * bytes -> list (N * N) -> Prop :=
| stsc_box v l : lenN v = 4 -> lenN l < 2 ^ 32 -> Forall (fun e => fst (fst e) < 2 ^ 32 /\ snd (fst e) < 2 ^ 32) l ->
    chunks_box (bstr "stsc", v ++ be 4 (lenN l) ++ concat (map entry l)) (map fst l).
(** the size of each sample, or of all *)
Inductive sizes_box : bytes * bytes -> list N -> Prop :=
| stsz_each v l : lenN v = 4 -> lenN l < 2 ^ 32 -> Forall (fun n => n < 2 ^ 32) l ->
    sizes_box (bstr "stsz", v ++ be 4 0 ++ be 4 (lenN l) ++ numbers 4 l) l
| stsz_all v size n : lenN v = 4 -> 0 < size -> size < 2 ^ 32 -> n < 2 ^ 32 ->
    sizes_box (bstr "stsz", v ++ be 4 size ++ be 4 n) (repN n size).

(** The samples in chunk [c] (the first is 1): those of the entry with the greatest first chunk not above it. *)
Definition in_table (tbl : list (N * N)) (c n : N) : Prop :=
  exists f, In (f, n) tbl /\ f <= c /\ forall f' n', In (f', n') tbl -> f' <= c -> f' <= f.
(** each entry begins behind the one before *)
Fixpoint increasing (l : list (N * N)) : Prop :=
  match l with
  | [] => True
  | (f, _) :: l' => (forall f' n', In (f', n') l' -> f < f') /\ increasing l'
  end.

(** ** Tracks *)
(** The number, the compact table, the chunks: an offset and the samples. *)
Record vtrack := mkV { v_id : N; v_table : list (N * N); v_chunks : list (N * list bytes) }.
Definition v_samples (t : vtrack) : list bytes := concat (map snd (v_chunks t)).
Definition v_data (t : vtrack) : bytes := concat (v_samples t).
(** the table fits the chunks *)
Definition counted (t : vtrack) : Prop :=
  increasing (v_table t) /\ (forall f n, In (f, n) (v_table t) -> 1 <= f) /\
  forall i o ds, nth_error (v_chunks t) i = Some (o, ds) -> in_table (v_table t) (1 + N.of_nat i) (lenN ds).
(** the chunks are in the file *)
Definition inside (f : bytes) (t : vtrack) : Prop := forall o ds, In (o, ds) (v_chunks t) -> occurs (concat ds) f o.
(** each chunk begins behind the one before, none at 0 *)
Fixpoint in_order (l : list (N * list bytes)) : Prop :=
  match l with
  | [] => True
  | (o, ds) :: l' => 0 < o /\ (forall o' ds', In (o', ds') l' -> o + lenN (concat ds) <= o') /\ in_order l'
  end.
(** the boxes of one track *)
Definition of_type (tys : list bytes) (its : list (bytes * bytes)) : list (bytes * bytes) :=
  filter (fun it => existsb (beqb (fst it)) tys) its.
Definition described (t : vtrack) (its : list (bytes * bytes)) : Prop :=
  exists d rest o c z, its = (bstr "tkhd", d) :: rest /\ 16 <= lenN d /\ unbe (sub 12 4 d) = v_id t /\ of_type [bstr "tkhd"] rest = [] /\
  of_type [bstr "stco"; bstr "co64"] rest = [o] /\ of_type [bstr "stsc"] rest = [c] /\ of_type [bstr "stsz"; bstr "stz2"] rest = [z] /\
  offsets_box o (map fst (v_chunks t)) /\ chunks_box c (v_table t) /\ sizes_box z (map lenN (v_samples t)).
Definition tracks_in (ts : list vtrack) (its : list (bytes * bytes)) : Prop :=
  NoDup (map v_id ts) /\ exists pre segs, its = pre ++ concat segs /\ Forall2 described ts segs /\
  of_type [bstr "tkhd"; bstr "stco"; bstr "co64"; bstr "stsc"; bstr "stsz"; bstr "stz2"] pre = [].

(** ** Samples *)
(** chunks one behind the other; the numbers of their tracks *)
Inductive laid_out : N -> list (N * (N * list bytes)) -> bytes -> Prop :=
| laid_nil pos : laid_out pos [] []
| laid_cons pos k ds l p : concat ds <> [] -> laid_out (pos + lenN (concat ds)) l p ->
    laid_out pos ((k, (pos, ds)) :: l) (concat ds ++ p).
Definition chunks_of (k : N) (l : list (N * (N * list bytes))) : list (N * list bytes) :=
  map snd (filter (fun x => fst x =? k) l).
(** one box mdat, that can have no size if it is the last box *)
Definition mp4_file (a h p b : bytes) : bytes := a ++ h ++ p ++ b.
Definition mdat_header (h p b : bytes) : Prop :=
  header (bstr "mdat") (lenN h + lenN p) h \/ (h = repN 4 x00 ++ bstr "mdat" /\ b = []).
Definition mp4_ok (a h p b : bytes) (ts : list vtrack) : Prop :=
  mdat_header h p b /\ Forall counted ts /\
  (exists ia ib, boxes false ia a /\ boxes false ib b /\ tracks_in ts (ia ++ ib)) /\
  exists l, laid_out (lenN a + lenN h) l p /\ (forall x, In x l -> In (fst x) (map v_id ts)) /\
  forall t, In t ts -> v_chunks t = chunks_of (v_id t) l.

(** ** The main file *)
Definition movie_ok (f : bytes) (ms : list vtrack) : Prop :=
  (exists its, boxes true its f /\ tracks_in ms its) /\
  Forall (fun m => counted m /\ inside f m /\ in_order (v_chunks m) /\ v_chunks m <> []) ms.
(** the data of the track begins with one of the samples, and not before that anything begins like it *)
Definition first_held (t m : vtrack) : Prop :=
  exists pre post, v_samples m = pre ++ post /\ starts (v_data t) (concat post) /\
  forall pre' post', v_samples m = pre' ++ post' -> lenN (concat pre') < lenN (concat pre) -> ~ starts (takeN 256 (v_data t)) (concat post').
(** [post]: the samples from the offset on *)
Definition from_offset (m : vtrack) (o : N) (post : list bytes) : Prop :=
  exists c1 o1 ds1 ds2 c2, v_chunks m = c1 ++ (o1, ds1 ++ ds2) :: c2 /\ o = o1 + lenN (concat ds1) /\ post = ds2 ++ concat (map snd c2).
Definition held_at (o : N) (t m : vtrack) : Prop := exists post, from_offset m o post /\ starts (v_data t) (concat post).
Definition in_movie (P : vtrack -> vtrack -> Prop) (ts ms : list vtrack) : Prop :=
  forall t, In t ts -> exists m, In m ms /\ v_id m = v_id t /\ P t m.

(** ** Reading *)
(** no size in 64 bits is 0 *)
Definition sized (f : bytes) : Prop := forall pos, sub pos 4 f = be 4 1 -> sub (pos + 8) 8 f <> repN 8 x00.
