(** MkvSpec: what a Matroska file looks like: elements, blocks with frames, tracks and attachments, and where the data of
    a track is. *)
From Verif Require Import Base EbmlSpec StrmSpec Mp3Spec.

(** ** Elements *)
Definition el (l : list N) : bytes := map n2b l.
Definition segment := el [0x18; 0x53; 0x80; 0x67].
Definition cluster := el [0x1F; 0x43; 0xB6; 0x75].
Definition block_group := el [0xA0].
Definition block_id := el [0xA1].
Definition simple_block := el [0xA3].
Definition tracks := el [0x16; 0x54; 0xAE; 0x6B].
Definition track_entry := el [0xAE].
Definition track_number := el [0xD7].
Definition codec := el [0x86].
Definition encodings := el [0x6D; 0x80].
Definition encoding := el [0x62; 0x40].
Definition compression := el [0x50; 0x34].
Definition algorithm := el [0x42; 0x54].
Definition settings := el [0x42; 0x55].
Definition attachments := el [0x19; 0x41; 0xA4; 0x69].
Definition attached := el [0x61; 0xA7].
Definition file_name := el [0x46; 0x6E].
Definition file_contents := el [0x46; 0x5C].
(** the elements of an SRS *)
Definition srs_elements := [el [0x1F; 0x69; 0x75; 0x76]; el [0x6A; 0x75]; el [0x6B; 0x75]].
Definition special : list bytes :=
  [segment; cluster; block_group; block_id; simple_block; tracks; track_entry; track_number; codec; encodings; encoding; compression;
   algorithm; settings; attachments; attached; file_name; file_contents] ++ srs_elements.
(** an id and a size of [w] bytes *)
Definition header (id : bytes) (w : nat) (n : N) : bytes := id ++ vint w n.
(** track number in [k_tw] bytes, time code, flags, sizes of the frames, frames *)
Record blk := mkBlk { k_id : bytes; k_w : nat; k_tw : nat; k_no : N; k_time : bytes; k_flags : byte; k_laces : bytes; k_frames : list bytes }.
Definition blk_head (b : blk) : bytes := vint (k_tw b) (k_no b) ++ k_time b ++ k_flags b :: k_laces b.
Definition blk_size (b : blk) : N := lenN (blk_head b) + lenN (concat (k_frames b)).
(** the header of an element that has others in it, with the size it says; an element; a block *)
Inductive item := Open (id : bytes) (w : nat) (size : N) | Leaf (id : bytes) (w : nat) (d : bytes) | Blk (b : blk).
Definition item_bytes (i : item) : bytes :=
  match i with
  | Open id w size => header id w size
  | Leaf id w d => header id w (lenN d) ++ d
  | Blk b => header (k_id b) (k_w b) (blk_size b) ++ blk_head b ++ concat (k_frames b)
  end.
Definition bytes_of (its : list item) : bytes := concat (map item_bytes its).
(** A file: elements; the list of tracks, a list of attachments or a cluster with all that is in it. *)
Inductive part := One (i : item) | Group (id : bytes) (w : nat) (its : list item).
Definition items_of (p : part) : list item :=
  match p with One i => [i] | Group id w its => Open id w (lenN (bytes_of its)) :: its end.
Definition all_items (ps : list part) : list item := concat (map items_of ps).
Definition file_of (ps : list part) : bytes := bytes_of (all_items ps).

(** ** Which are allowed where *)
(** an id is a number as well *)
Definition id_ok (id : bytes) : Prop := exists w v, vint_ok w v /\ id = vint w v.
Definition lace_type (b : blk) : N := N.land (b2n (k_flags b)) 6.
(** A single frame is laced as none or by Xiph lacing, see C30. *)
Definition blk_ok (b : blk) : Prop :=
  (k_id b = block_id \/ k_id b = simple_block) /\ vint_ok (k_w b) (blk_size b) /\ vint_ok (k_tw b) (k_no b) /\ lenN (k_time b) = 2 /\
  laced (lace_type b) (map lenN (k_frames b)) (k_laces b) /\ (lace_type b = 0 \/ lace_type b = 2 \/ 2 <= lenN (k_frames b)).
(** numbers are below 128 if in one byte *)
Definition number_ok (d : bytes) : Prop := 1 <= lenN d <= 8 /\ unbe d < 2 ^ (7 * lenN d).
Definition item_ok (opens leaves : list bytes) (blocks : Prop) (i : item) : Prop :=
  match i with
  | Open id w size => In id opens /\ vint_ok w size
  | Leaf id w d => id_ok id /\ vint_ok w (lenN d) /\ (~ In id special \/ In id leaves) /\ (id = track_number \/ id = algorithm -> number_ok d)
  | Blk b => blocks /\ blk_ok b
  end.
Definition group_ok (id : bytes) (i : item) : Prop :=
  (id = tracks /\ item_ok [track_entry; encodings; encoding; compression] [track_number; codec; algorithm; settings] False i) \/
  (id = attachments /\ item_ok [attached] [file_name; file_contents] False i) \/
  (id = cluster /\ item_ok [block_group] [] True i).
(** The size of the segment can be anything; what is in a list is within it. *)
Definition part_ok (p : part) : Prop :=
  match p with
  | One i => item_ok [segment] [] False i
  | Group id w its =>
    In id [tracks; attachments; cluster] /\ vint_ok w (lenN (bytes_of its)) /\ Forall (group_ok id) its /\
    forall a i w size b, its = a ++ Open i w size :: b -> size <= lenN (bytes_of b)
  end.
Definition group_in (ids : list bytes) (p : part) : Prop := exists id w its, p = Group id w its /\ In id ids.
(** no [a] behind [b] *)
Definition before (a b : list bytes) (ps : list part) : Prop := forall x p y q z, ps = x ++ p :: y ++ q :: z -> group_in b p -> ~ group_in a q.

(** ** Tracks *)
Definition listed (n : N) (its : list item) : Prop := exists w d, In (Leaf track_number w d) its /\ unbe d = n.
Definition has_track (n : N) (its : list item) : Prop := listed n its \/ exists b, In (Blk b) its /\ k_no b = n.
(** What is told about a track is behind its number. *)
Definition about_track (i : item) : Prop := match i with Open id _ _ => id = compression | Leaf id _ _ => In id [codec; algorithm; settings] | Blk _ => False end.
Definition numbered (its : list item) : Prop := forall x i y, its = x ++ i :: y -> about_track i -> exists n, listed n x.
(** Header removal compression (algorithm 3): what is removed from each frame of track [n].  [cur]: the last track number,
    [three]: the last algorithm is 3. *)
Fixpoint removed (n : N) (cur : option N) (three : bool) (now : bytes) (its : list item) : bytes :=
  match its with
  | [] => now
  | Leaf id _ d :: its =>
    if beqb id track_number then removed n (Some (unbe d)) three now its
    else if beqb id algorithm then removed n cur (unbe d =? 3) now its
    else if beqb id settings then removed n cur three (match cur with Some k => if three && (k =? n) then d else now | None => now end) its
    else removed n cur three now its
  | _ :: its => removed n cur three now its
  end.
Definition header_of (n : N) (its : list item) : bytes := removed n None false [] its.
Definition frames_of (n : N) (i : item) : list bytes := match i with Blk b => if k_no b =? n then k_frames b else [] | _ => [] end.
Definition data_of (n : N) (its : list item) : bytes := concat (map (fun i => concat (frames_of n i)) its).

(** ** Attachments *)
(** the files with their names, None if there is no name before a file *)
Fixpoint attached_files (cur : option bytes) (its : list item) : list (option bytes * bytes) :=
  match its with
  | [] => []
  | Leaf id _ d :: its =>
    if beqb id file_name then attached_files (Some d) its
    else if beqb id file_contents then (cur, d) :: attached_files cur its
    else attached_files cur its
  | _ :: its => attached_files cur its
  end.
Definition files_of (its : list item) : list (option bytes * bytes) := attached_files None its.
(** each has a name, of its own *)
Definition files_ok (its : list item) : Prop := ~ In None (map fst (files_of its)) /\ NoDup (map fst (files_of its)).

(** ** Samples *)
(** One segment, first the list of tracks in it.  Some data in each track that has blocks. *)
Definition mkv_ok (ps : list part) : Prop :=
  Forall part_ok ps /\
  (exists a w size b, ps = a ++ One (Open segment w size) :: b /\ Forall (fun p => exists id w d, p = One (Leaf id w d)) a /\ forall w size, ~ In (One (Open segment w size)) b) /\
  before [tracks] [cluster; attachments] ps /\ numbered (all_items ps) /\ files_ok (all_items ps) /\
  (forall n, has_track n (all_items ps) -> n < 2 ^ 16) /\ (forall b, In (Blk b) (all_items ps) -> data_of (k_no b) (all_items ps) <> []).
(** the same element, with other data in the frames and attachments, as much in the frames *)
Definition shaped (i : item) (x : bytes) : Prop :=
  match i with
  | Open _ _ _ => x = item_bytes i
  | Leaf id w d => exists d', x = header id w (lenN d) ++ d' /\ (d' = d \/ id = file_contents)
  | Blk b => exists d', x = header (k_id b) (k_w b) (blk_size b) ++ blk_head b ++ d' /\ lenN d' = lenN (concat (k_frames b))
  end.

(** ** The main file *)
(** A last byte is not looked at.  Tracks and attachments are before the clusters; the tracks are listed. *)
Definition movie_ok (f : bytes) (ps : list part) : Prop :=
  (exists r, f = file_of ps ++ r /\ lenN r < 2) /\ Forall part_ok ps /\ before [tracks; attachments] [cluster] ps /\
  numbered (all_items ps) /\ files_ok (all_items ps) /\ (forall b, In (Blk b) (all_items ps) -> listed (k_no b) (all_items ps)).
(** the frames of track [n] with their offsets *)
Fixpoint placed (o : N) (l : list bytes) : list (N * bytes) := match l with [] => [] | x :: l => (o, x) :: placed (o + lenN x) l end.
Fixpoint frames_at (n : N) (o : N) (its : list item) : list (N * bytes) :=
  match its with
  | [] => []
  | i :: its =>
    match i with Blk b => if k_no b =? n then placed (o + lenN (header (k_id b) (k_w b) (blk_size b) ++ blk_head b)) (k_frames b) else [] | _ => [] end
    ++ frames_at n (o + lenN (item_bytes i)) its
  end.
(** A frame of the main file and the same frame in the sample: with what was removed it is the same. *)
Definition same_frame (inmain insample : bytes) (x y : N * bytes) : Prop := fst x = fst y /\ inmain ++ snd x = insample ++ snd y.
(** [l]: the frames of track [n] in the main file [ms], none of which is empty, as they are in the sample [its]. *)
Definition comparable (n : N) (its ms : list item) (l : list (N * bytes)) : Prop :=
  Forall2 (same_frame (header_of n ms) (header_of n its)) (frames_at n 0 ms) l /\ Forall (fun x => snd x <> []) (frames_at n 0 ms).
Definition joined (l : list (N * bytes)) : bytes := concat (map snd l).
(** from the frame at [o] on there is [d] *)
Definition held (d : bytes) (l : list (N * bytes)) (o : N) : Prop :=
  exists a x b, l = a ++ (o, x) :: b /\ x <> [] /\ starts d (x ++ joined b).
(** From no frame before that on there is something that begins like [d], as far as the frame at [o]. *)
Definition first_held (d : bytes) (l : list (N * bytes)) (o : N) : Prop :=
  exists a x b, l = a ++ (o, x) :: b /\ x <> [] /\ starts d (x ++ joined b) /\
  forall a1 y a2, a = a1 ++ y :: a2 -> snd y <> [] -> ~ starts (takeN (lenN (takeN 256 d)) (snd y ++ joined a2 ++ x)) (takeN 256 d).
(** Nothing was removed from the frames of the main file, or the same as in the sample. *)
Definition alike (its ms : list item) : Prop := forall n, data_of n its <> [] -> header_of n ms = header_of n its \/ header_of n ms = [].
(** The tracks of the sample that have data are in the main file, its attachments too. *)
Definition in_movie (P : bytes -> list (N * bytes) -> N -> Prop) (its ms : list item) (at_ : N -> N) : Prop :=
  (forall n, data_of n its <> [] -> exists l, comparable n its ms l /\ P (data_of n its) l (at_ n)) /\ incl (files_of its) (files_of ms).
