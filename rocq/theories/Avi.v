(** Avi: AVI files and their SRS files (resample/riff.py RiffReader; resample/main.py, the functions avi_...).  The files
    are given by their contents; a main file inside RAR volumes is in AviProg.v; offsets of 2^63 and more are not modelled. *)
From Verif Require Import Base Crc SrsRec Srs.

(** ** riff.py *)
(** riff.py:43 fourCCValidator: four letters, digits or spaces *)
Definition digit (b : byte) : bool := (48 <=? b2n b) && (b2n b <=? 57).
Definition fourcc_char (b : byte) : bool :=
  (b2n b =? 32) || digit b || (65 <=? b2n b) && (b2n b <=? 90) || (97 <=? b2n b) && (b2n b <=? 122).
Definition valid_fourcc (c : bytes) : bool := (lenN c =? 4) && forallb fourcc_char c.
(** riff.py:61-74 RiffChunkType, RiffChunk, MoviChunk and RiffList; the types SrsFile and SrsTrack are not used *)
Inductive ckind := List_of (list_type : bytes) | Movi (stream : N) | Index | Other.
Record chunk := mkC { c_kind : ckind; c_fourcc : bytes; c_length : Z; c_header : bytes; c_start : N }.
Definition c_data (c : chunk) : N := c_start c + lenN (c_header c).
(** riff.py:189-250 read, at [pos]; None: no room for a header.  [check]: the mode is Sample. *)
Definition riff_next (check : bool) (f : bytes) (pos : N) : result (option chunk) :=
  if lenN f <? pos + 8 then Ok None
  else
    let header := sub pos 8 f in
    let cc := takeN 4 header in
    do n <- unpack 4 header 4;
    if negb (valid_fourcc cc) then Err ValueError
    else if check && negb (beqb cc (bstr "RIFF")) && (lenN f <? pos + 8 + n) then Err ValueError
    else if beqb cc (bstr "RIFF") || beqb cc (bstr "LIST") then
      let header := header ++ sub (pos + 8) 4 f in
      Ok (Some (mkC (List_of cc) (sub 8 4 header) (Z.of_N n - 4) header pos))
    else
      let kind := match cc with
                  | a :: b :: _ => if digit a && digit b then Movi (10 * (b2n a - 48) + (b2n b - 48))
                                   else if beqb cc (bstr "idx1") then Index else Other
                  | _ => Other
                  end in
      Ok (Some (mkC kind cc (Z.of_N n) header pos)).
Definition has_padding (c : chunk) : bool := (c_length c mod 2 =? 1)%Z.
(** the padding byte at [pos], and where to read on *)
Definition riff_pad (f : bytes) (c : chunk) (pos : N) : result (bytes * N) :=
  if has_padding c then match sub pos 1 f with [] => Err StructError | p => Ok (p, pos + 1) end else Ok ([], pos).
Definition is_movi (c : chunk) : bool := match c_kind c with Movi _ => true | _ => false end.
(** riff.py:252-270 read_contents: the contents, the padding byte and where to read on.  [srs]: the mode is SRS, in which
    chunks with the data of streams have no contents (None). *)
Definition riff_contents (f : bytes) (c : chunk) : bytes := read_at f (c_data c) (c_length c).
Definition riff_read (srs : bool) (f : bytes) (c : chunk) : result (bytes * bytes * N) :=
  let buff := if srs && is_movi c then [] else riff_contents f c in
  do p <- riff_pad f c (c_data c + lenN buff);
  Ok (buff, fst p, snd p).
(** read_contents once more: back from behind what has been read *)
Definition riff_again (f : bytes) (c : chunk) : result bytes :=
  let at_ := (Z.of_N (c_data c + lenN (riff_contents f c)) - c_length c)%Z in
  if (at_ <? 0)%Z then Err OSError else Ok (read_at f (Z.to_N at_) (c_length c)).
(** riff.py:272-281 skip_contents: the padding byte and where to read on *)
Definition riff_skip (srs : bool) (f : bytes) (c : chunk) : result (bytes * N) :=
  riff_pad f c (if srs && is_movi c then c_data c else Z.to_N (Z.of_N (c_data c) + c_length c)).
Section Loop.
Context {S : Type}.
(** [while rr.read() and not done: ...] from [pos] on; [stop]: done.  An action gives where to read on, None: break.
    riff.py:283-286 move_to_child: [c_data]. *)
Fixpoint riff_loop (fuel : nat) (check : bool) (stop : S -> bool) (act : S -> chunk -> result (S * option N)) (f : bytes) (pos : N) (s : S) : result S :=
  match fuel with
  | O => Err OutOfFuel
  | Datatypes.S fuel =>
    do c <- riff_next check f pos;
    match c with
    | None => Ok s
    | Some c =>
      if stop s then Ok s
      else
        do r <- act s c;
        match snd r with
        | None => Ok (fst r)
        | Some pos => riff_loop fuel check stop act f pos (fst r)
        end
    end
  end.
Definition riff_run (check : bool) (stop : S -> bool) (act : S -> chunk -> result (S * option N)) (f : bytes) (pos : N) (s : S) : result S :=
  riff_loop (1 + length f) check stop act f pos s.
End Loop.
Definition never {S : Type} (_ : S) : bool := false.
Definition cc_is (cc : bytes) (c : chunk) : bool := beqb (c_fourcc c) cc.

(** riff.py:134-187 _find_chunk_offset.  The index and the start of movi: *)
Definition index_step (f : bytes) (s : bytes * N) (c : chunk) : result ((bytes * N) * option N) :=
  if cc_is (bstr "AVI ") c then
    match c_kind c with List_of _ => Ok (s, Some (c_data c)) | _ => Err AssertionError end
  else if cc_is (bstr "movi") c then do p <- riff_skip false f c; Ok ((fst s, c_start c), Some (snd p))
  else match c_kind c with
       | Index => do r <- riff_read false f c; Ok ((fst (fst r), snd s), None)
       | _ => do p <- riff_skip false f c; Ok (s, Some (snd p))
       end.
(** 166-171, the offsets, the last first *)
Fixpoint index_offsets (fuel : nat) (index : bytes) (match_offset offset idxpos : N) (l : list N) : result (list N) :=
  match fuel with
  | O => Err OutOfFuel
  | S fuel =>
    if (offset <? match_offset) && (idxpos + 16 <=? lenN index) then
      do o <- unpack 4 index (idxpos + 8);
      index_offsets fuel index match_offset o (idxpos + 16) (o :: l)
    else Ok l
  end.
Definition valid_location (f : bytes) (offset : N) : bool := valid_fourcc (sub offset 4 f).
Definition find_chunk_offset (f : bytes) (match_offset : N) : result N :=
  do s <- riff_run false never (index_step f) f 0 ([], 0);
  if (snd s =? 0) || (lenN (fst s) =? 0) then Ok 0
  else
    do offsets <- index_offsets (1 + length (fst s)) (fst s) match_offset 0 0 [];
    let base := snd s + 8 in
    (* 175-182: from the begin of movi *)
    let first := find (fun o => base + o <? match_offset) offsets in
    (* 185-192: from the begin of the file *)
    let second := match find (fun o => o <? match_offset) offsets with
                  | Some o => if valid_location f o then o else 0
                  | None => 0
                  end in
    Ok (match first with
        | Some o => if valid_location f (base + o) then base + o else second
        | None => second
        end).
(** riff.py:98-124: where a reader with a match_offset begins (the mode is AVI); ValueError: InvalidMatchOffsetException *)
Definition riff_start (f : bytes) (match_offset : N) : result N :=
  if (8 <=? match_offset) && (match_offset <? lenN f) then
    if valid_location f (match_offset - 8) then Ok (match_offset - 8)
    else
      do o <- find_chunk_offset f match_offset;
      if o <? match_offset then Ok o else Err AssertionError
  else if lenN f <=? match_offset then Err ValueError
  else Ok 0.

(** ** main.py:890-983 avi_profile_sample *)
Definition new_track (n : N) : track := track_of {| td_flags := 0; td_number := n; td_length := 0; td_offset := 0; td_signature := [] |}.
Definition with_new (n : N) (ts : tracks) : tracks :=
  match get_track n ts with Ok _ => ts | Err _ => set_track n (new_track n) ts end.
(** 922-938: the length and the signature *)
Definition add_data (t : track) (n : N) (data : bytes) : track :=
  let b := td_signature (t_td t) in
  let sig := if lenN b <? SIG_SIZE then b ++ takeN (N.min SIG_SIZE (lenN b + n) - lenN b) data else b in
  mkTrack {| td_flags := td_flags (t_td t); td_number := td_number (t_td t); td_length := td_length (t_td t) + n;
             td_offset := td_offset (t_td t); td_signature := sig |} (t_offset t) (t_match t) (t_file t) (t_print t).
(** the tracks, other_length, the CRC *)
Record pstate := mkP { p_tracks : tracks; p_other : N; p_crc : N }.
Definition profile_step (f : bytes) (p : pstate) (c : chunk) : result (pstate * option N) :=
  let p := mkP (p_tracks p) (p_other p + lenN (c_header c)) (zcrc32 (c_header c) (p_crc p)) in
  match c_kind c with
  | List_of _ => Ok (p, Some (c_data c))
  | k =>
    do r <- riff_read false f c;
    let '(data, pad, next) := r in
    do p <- (match k with
             | Movi n =>
               let ts := with_new n (p_tracks p) in
               do t <- get_track n ts;
               Ok (mkP (set_track n (add_data t (Z.to_N (c_length c)) data) ts) (p_other p) (zcrc32 data (p_crc p)))
             | _ => Ok (mkP (p_tracks p) (p_other p + Z.to_N (c_length c)) (zcrc32 data (p_crc p)))
             end);
    Ok (mkP (p_tracks p) (p_other p + lenN pad) (zcrc32 pad (p_crc p)), Some next)
  end.
Definition sum_lengths (ts : tracks) : N := fold_right (fun t n => td_length (t_td (snd t)) + n) 0 ts.
Definition avi_profile (name : text) (f : bytes) : result (file_data * tracks) :=
  do p <- riff_run true never (profile_step f) f 0 (mkP [] 0 0);
  if lenN f =? p_other p + sum_lengths (p_tracks p) then
    Ok ({| fd_flags := NEW_FLAGS; fd_appname := []; fd_sample_name := name; fd_size := lenN f; fd_crc32 := p_crc p |}, p_tracks p)
  else Err ValueError.

(** ** main.py:1871-1910 avi_create_srs *)
(** main.py:328-333 and 474-479 serialize_as_riff, and the padding of 1886-1888 and 1893-1895 *)
Definition riff_chunk (cc data : bytes) : result bytes :=
  do size <- pack 4 (lenN data);
  Ok (cc ++ size ++ data ++ (if lenN (cc ++ size ++ data) mod 2 =? 1 then [x00] else [])).
Definition srs_chunks (app : text) (fd : file_data) (ts : list track_data) : result bytes :=
  do x <- (do d <- serialize_file app fd; riff_chunk (bstr "SRSF") d);
  do l <- mapR (fun t => do d <- serialize_track t; riff_chunk (bstr "SRST") d) ts;
  Ok (x ++ concat l).
Definition create_step (app : text) (fd : file_data) (ts : list track_data) (f : bytes) (out : bytes) (c : chunk) : result (bytes * option N) :=
  let out := out ++ c_header c in
  match c_kind c with
  | List_of ty =>
    do x <- (if beqb ty (bstr "LIST") && cc_is (bstr "movi") c then srs_chunks app fd ts else Ok []);
    Ok (out ++ x, Some (c_data c))
  | Movi _ => do p <- riff_skip false f c; Ok (out ++ fst p, Some (snd p))
  | _ => do r <- riff_read false f c; let '(data, pad, next) := r in Ok (out ++ data ++ pad, Some next)
  end.
(** srs.py:331-366: profile and create.  [offset]: what the option -c has found for each track. *)
Definition stored_track (big : bool) (offset : N -> N) (t : N * track) : track_data := with_stored big (offset (fst t)) (t_td (snd t)).
Definition avi_srs (app name : text) (big : bool) (offset : N -> N) (f : bytes) : result bytes :=
  do p <- avi_profile name f;
  match snd p with
  | [] => Err ValueError                        (* srs.py:341 no A/V data *)
  | ts => riff_run false never (create_step app (fst p) (map (stored_track big offset) ts) f) f 0 []
  end.

(** ** main.py:719-742 avi_load_srs *)
Definition load_step (f : bytes) (s : option file_data * tracks) (c : chunk) : result ((option file_data * tracks) * option N) :=
  match c_kind c with
  | List_of _ => Ok (s, Some (c_data c))
  | k =>
    if cc_is (bstr "SRSF") c then
      do r <- riff_read true f c; do d <- parse_file_data (fst (fst r)); Ok ((Some d, snd s), Some (snd r))
    else if cc_is (bstr "SRST") c then
      do r <- riff_read true f c; do t <- parse_track (fst (fst r)); Ok ((fst s, set_track (td_number t) (track_of t) (snd s)), Some (snd r))
    else
      match k with
      | Movi _ => Ok (s, None)
      | _ => do p <- riff_skip true f c; Ok (s, Some (snd p))
      end
  end.
Definition avi_load_srs (f : bytes) : result (file_data * tracks) :=
  do s <- riff_run false never (load_step f) f 0 (None, []);
  match fst s with None => Err UnboundLocal | Some d => Ok (d, snd s) end.

(** ** main.py:2138-2239 avi_find_sample_streams *)
(** the tracks, their check_bytes, done *)
Definition fstate := (tracks * (N -> bytes) * bool)%type.
Definition upd (c : N -> bytes) (k : N) (v : bytes) : N -> bytes := fun q => if q =? k then v else c q.
(** 2198-2219: the first place in [data] where the signature begins, as far as the chunk goes.  bytes.find with the
    first byte of the signature only skips places where the signature does not begin. *)
Fixpoint find_start (sig data : bytes) (pos : N) : option (N * bytes) :=
  match data with
  | [] => None
  | _ :: data' =>
    let check := takeN (lenN sig) data in
    if starts_with Byte.eqb check sig then Some (pos, check) else find_start sig data' (pos + 1)
  end.
(** 2169-2225 *)
Definition find_chunk (f : bytes) (c : chunk) (t : track) (check : bytes) : result (track * bytes) :=
  let sig := td_signature (t_td t) in
  let len := td_length (t_td t) in
  if (t_offset t =? 0)%Z || (lenN check <? lenN sig) then
    if negb (lenN sig =? 0) then
      do r <- (if (0 <? lenN check) && (lenN check <? lenN sig) then
                 let more := check ++ takeN (N.min (lenN sig) (Z.to_N (c_length c) + lenN check) - lenN check) (riff_contents f c) in
                 if starts_with Byte.eqb more sig then Ok (t, more, [])
                 else do data <- riff_again f c; Ok (located t 0 0, [], data)
               else Ok (t, check, riff_contents f c));
      let '(t, check, data) := r in
      match check with
      | [] =>
        match find_start sig data 0 with
        | Some (pos, check) => Ok (located t (Z.of_N (c_data c + pos)) (N.min len (lenN data - pos)), check)
        | None => Ok (t, check)
        end
      | _ => Ok (t, check)
      end
    else Ok (located t (t_offset t) (N.min (len - t_match t) (Z.to_N (c_length c))), check)
  else if t_match t <? len then
    Ok (located t (t_offset t) (t_match t + N.min (len - t_match t) (Z.to_N (c_length c))), check)
  else Ok (t, check).
(** 2227-2233: if the match was known before and some of the data was missing, all tracks are looked at *)
Definition counting (t : track) (check : bytes) : bool :=
  negb ((t_offset t =? 0)%Z || (lenN check <? lenN (td_signature (t_td t)))) && (t_match t <? td_length (t_td t)).
Definition all_found (ts : tracks) : bool := forallb (fun t => td_length (t_td (snd t)) <=? t_match (snd t)) ts.
(** whether the contents have been read *)
Definition reads_chunk (t : track) (check : bytes) : bool :=
  ((t_offset t =? 0)%Z || (lenN check <? lenN (td_signature (t_td t)))) && negb (lenN (td_signature (t_td t)) =? 0) &&
  ((lenN check =? 0) || (lenN check <? lenN (td_signature (t_td t)))).
Definition find_step (f : bytes) (s : fstate) (c : chunk) : result (fstate * option N) :=
  let '(ts, checks, done) := s in
  match c_kind c with
  | List_of _ => Ok (s, Some (c_data c))
  | Movi n =>
    let ts := with_new n ts in
    do t <- get_track n ts;
    (* the padding byte is read with the contents *)
    do next <- (if reads_chunk t (checks n) then do r <- riff_read false f c; Ok (snd r) else do p <- riff_skip false f c; Ok (snd p));
    do r <- find_chunk f c t (checks n);
    let ts := set_track n (fst r) ts in
    Ok ((ts, upd checks n (snd r), if counting t (checks n) then all_found ts else done), Some next)
  | _ => do p <- riff_skip false f c; Ok (s, Some (snd p))
  end.
Definition fs_done {A B} (s : A * B * bool) : bool := snd s.
Definition avi_find (ts : tracks) (main : bytes) : result tracks :=
  do s <- riff_run false fs_done (find_step main) main 0 (ts, fun _ => [], false);
  Ok (fst (fst s)).

(** ** main.py:2995-3069 avi_extract_sample_streams *)
(** 2997-3000 *)
Definition min_offset (ts : tracks) : N :=
  fold_right (fun t n => if (0 <? t_offset (snd t))%Z then N.min (Z.to_N (t_offset (snd t))) n else n) (2 ^ 63) ts.
Definition complete (t : track) : bool := match t_file t with None => false | Some d => td_length (t_td t) <=? lenN d end.
Definition with_file (t : track) (d : bytes) : track := mkTrack (t_td t) (t_offset t) (t_match t) (Some d) (t_print t).
Definition extract_step (f : bytes) (s : tracks * bool) (c : chunk) : result ((tracks * bool) * option N) :=
  let '(ts, done) := s in
  match c_kind c with
  | List_of _ => Ok (s, Some (c_data c))
  | Movi n =>
    let ts := with_new n ts in
    do t <- get_track n ts;
    if (t_offset t <? Z.of_N (c_data c) + c_length c)%Z then
      let d := match t_file t with Some d => d | None => [] end in
      do r <- (if lenN d <? td_length (t_td t) then
                 do r <- riff_read false f c;
                 let data := fst (fst r) in
                 Ok (d ++ (if (t_offset t <=? Z.of_N (c_data c))%Z then data
                           else dropN (Z.to_N (t_offset t) - c_data c) data), snd r)
               else do p <- riff_skip false f c; Ok (d, snd p));
      let ts := set_track n (with_file t (fst r)) ts in
      Ok ((ts, forallb (fun t => complete (snd t)) ts), Some (snd r))
    else do p <- riff_skip false f c; Ok ((ts, done), Some (snd p))
  | _ => do p <- riff_skip false f c; Ok (s, Some (snd p))
  end.
Definition avi_extract (ts : tracks) (main : bytes) : result tracks :=
  do pos <- riff_start main (min_offset ts);
  do s <- riff_run false snd (extract_step main) main pos (ts, false);
  Ok (fst s).

(** ** main.py:3404-3457 avi_rebuild_sample *)
(** the sample and what is left in the files of the tracks *)
Definition rebuild_step (srs : bytes) (s : bytes * list (N * bytes)) (c : chunk) : result ((bytes * list (N * bytes)) * option N) :=
  if cc_is (bstr "SRSF") c || cc_is (bstr "SRST") c then do p <- riff_skip true srs c; Ok (s, Some (snd p))
  else
    let out := fst s ++ c_header c in
    match c_kind c with
    | List_of _ => Ok ((out, snd s), Some (c_data c))
    | Movi n =>
      match find (fun x => fst x =? n) (snd s) with
      | None => Err KeyError
      | Some (_, d) =>
        do p <- riff_skip true srs c;
        let k := Z.to_N (c_length c) in
        Ok ((out ++ takeN k d ++ fst p, map (fun x => if fst x =? n then (n, dropN k d) else x) (snd s)), Some (snd p))
      end
    | _ => do r <- riff_read true srs c; let '(data, pad, next) := r in Ok ((out ++ data ++ pad, snd s), Some next)
    end.
(** 3408-3410: a track without a file is an AttributeError *)
Definition track_file (t : N * track) : result (N * bytes) :=
  match t_file (snd t) with None => Err AttributeError | Some d => Ok (fst t, d) end.
Definition avi_rebuild (ts : tracks) (srs : bytes) : result (bytes * bytes) :=
  do files <- mapR track_file ts;
  do s <- riff_run false never (rebuild_step srs) srs 0 ([], files);
  Ok (fst s, fst s).

Definition avi_restore (no_stored : bool) (srs main : bytes) : result outcome :=
  srs_rebuild avi_load_srs avi_find avi_extract avi_rebuild false false no_stored srs main.
