(** Wmv: WMV (ASF) files and their SRS files (resample/asf.py; resample/main.py, the functions wmv_...).  The files are
    given by their contents; a main file inside RAR volumes is in WmvProg.v.  Offsets of 2^63 and more are not modelled. *)
From Verif Require Import Base Crc SrsRec Srs Avi.

(** ** asf.py *)
(** asf.py:37-49 *)
Definition HEADER_OBJECT : bytes := map n2b [0x30; 0x26; 0xB2; 0x75; 0x8E; 0x66; 0xCF; 0x11; 0xA6; 0xD9; 0x00; 0xAA; 0x00; 0x62; 0xCE; 0x6C].
Definition DATA_OBJECT : bytes := map n2b [0x36; 0x26; 0xB2; 0x75; 0x8E; 0x66; 0xCF; 0x11; 0xA6; 0xD9; 0x00; 0xAA; 0x00; 0x62; 0xCE; 0x6C].
Definition STREAM_OBJECT : bytes := map n2b [0x91; 0x07; 0xDC; 0xB7; 0xB7; 0xA9; 0xCF; 0x11; 0x8E; 0xE6; 0x00; 0xC0; 0x0C; 0x20; 0x53; 0x65].
Definition FILE_OBJECT : bytes := map n2b [0xA1; 0xDC; 0xAB; 0x8C; 0x47; 0xA9; 0xCF; 0x11; 0x8E; 0xE4; 0x00; 0xC0; 0x0C; 0x20; 0x53; 0x65].
Definition SRS_FILE : bytes := bstr "SRSFSRSFSRSFSRSF".
Definition SRS_TRACK : bytes := bstr "SRSTSRSTSRSTSRST".
Definition SRS_PADDING : bytes := bstr "PADDINGBYTESDATA".

(** asf.py:267-289 getlen2b, getvalue2b at [pos] *)
Definition field (w : N) : N := if w =? 3 then 4 else w.
Definition field_at (w : N) (data : bytes) (pos : N) : result N := if w =? 0 then Ok 0 else unpack (N.to_nat (field w)) data pos.
(** two bits of a byte *)
Definition bits (b i : N) : N := N.shiftr b i mod 4.

(** asf.py:243-265 AsfPayload: the fields that are used elsewhere.  In SRS mode what is where the data was is not used. *)
Record pay := mkY { y_stream : N; y_hsize : N; y_header : bytes; y_len : Z; y_data : bytes }.
(** asf.py:526-583: the parts of a compressed payload from [pos] on; [hstart]: where the header of the next one begins;
    [used] of [len] bytes.  That the parts fill the payload is found out first; there is no other effect. *)
Fixpoint sub_payloads (fuel : nat) (srs : bool) (stream : N) (data : bytes) (hstart pos : N) (used len : Z) : result (list pay * N) :=
  match fuel with
  | O => Err OutOfFuel
  | S fuel =>
    if (used <? len)%Z then
      do n <- unpack 1 data pos;
      let next := if srs then pos + 1 else pos + 1 + n in
      do r <- sub_payloads fuel srs stream data next next (used + 1 + Z.of_N n) len;
      Ok (mkY stream (pos + 1 - hstart) (sub hstart (pos + 1 - hstart) data) (Z.of_N n) (if srs then [] else sub (pos + 1) n data) :: fst r, snd r)
    else if (used =? len)%Z then Ok ([], pos) else Err ValueError
  end.
(** asf.py:439-600 asf_data_read_payloads, 333-350 asf_data_read_payload_fields: [n] payloads, those with parts counted
    once, from [skip] on; also where they end.  pts and key_frame are not modelled. *)
Fixpoint read_payloads (n : nat) (srs multiple : bool) (flags : N) (data : bytes) (datalen : Z) (skip : N) : result (list pay * N) :=
  match n with
  | O => Ok ([], skip)
  | S n =>
    if negb srs && (datalen <? Z.of_N (skip + 1))%Z then Err ValueError
    else
      do b <- unpack 1 data skip;
      let stream := b mod 128 in
      let p1 := skip + 1 in
      let p2 := p1 + field (bits flags 4) in
      let p3 := p2 + field (bits flags 2) in
      let p4 := p3 + field (bits flags 0) in
      if negb srs && (datalen <? Z.of_N p4)%Z then Err ValueError
      else
        do _ <- field_at (bits flags 4) data p1;
        do _ <- field_at (bits flags 2) data p2;
        do rep <- field_at (bits flags 0) data p3;
        do p5 <- (if 1 <? rep then
                    if (rep <? 8) || (datalen <? Z.of_N (rep + p4))%Z then Err ValueError
                    else do _ <- unpack 4 (sub p4 rep data) 4; Ok (p4 + rep)
                  else if rep =? 1 then
                    if (datalen <? Z.of_N (p4 + 1))%Z then Err ValueError else do _ <- unpack 1 data p4; Ok (p4 + 1)
                  else Ok p4);
        do l <- (if multiple then
                   if (datalen <? Z.of_N (p5 + 2))%Z then Err ValueError else do l <- unpack 2 data p5; Ok (Z.of_N l, p5 + 2)
                 else Ok ((datalen - Z.of_N p5)%Z, p5));
        let '(len, p6) := l in
        do r <- (if rep =? 1 then sub_payloads (1 + length data) srs stream data skip p6 0 len
                 else
                   let d := sub p6 (Z.to_N len) data in
                   if negb srs && negb (Z.of_N (lenN d) =? len)%Z then Err AssertionError
                   else Ok ([mkY stream (p6 - skip) (sub skip (p6 - skip) data) len (if srs then [] else d)], if srs then p6 else p6 + lenN d));
        do t <- read_payloads n srs multiple flags data datalen (snd r);
        Ok (fst r ++ fst t, snd t)
  end.
(** asf.py:212-241 AsfDataPacket: payloads, padding_length, payload_data_len, the length of the header, the bytes consumed *)
Record parsed := mkK { k_pays : list pay; k_pad : Z; k_plen : Z; k_hlen : N; k_used : N }.
(** asf.py:352-437 asf_data_get_packet, 291-331 asf_data_read_packet_fields.  [srs]: the mode is SRS.  The assertion of
    425 holds: the number of payloads is counted up with the parts of compressed ones. *)
Definition get_packet (srs : bool) (data : bytes) (psize : Z) : result parsed :=
  do b0 <- unpack 1 data 0;
  if negb (b0 =? 0x82) then Err AssertionError
  else if (psize <? 5)%Z then Err ValueError
  else
    do flags <- unpack 1 data 3;
    do property <- unpack 1 data 4;
    let p1 := 5 + field (bits flags 5) in
    let p2 := p1 + field (bits flags 1) in
    let p3 := p2 + field (bits flags 3) in
    let read := p3 + 6 in
    if (psize <? Z.of_N read)%Z then Err ValueError
    else if negb srs && negb (Z.of_N (lenN data) =? psize)%Z then Err ValueError
    else
      do length <- field_at (bits flags 5) data 5;
      do _ <- field_at (bits flags 1) data p1;
      do padding <- field_at (bits flags 3) data p2;
      do _ <- unpack 4 data p3;
      do _ <- unpack 2 data (p3 + 4);
      let length := if bits flags 5 =? 0 then psize else Z.of_N length in
      if (psize <? length)%Z then Err ValueError
      else
        let padding := (Z.of_N padding + (psize - length))%Z in
        do c <- (if N.odd flags then
                   if (psize <? Z.of_N (read + 1))%Z then Err ValueError
                   else
                     do b <- unpack 1 data read;
                     if b mod 64 =? 0 then Err ValueError else if bits b 6 =? 2 then Ok (b mod 64, read + 1) else Err ValueError
                 else Ok (1, read));
        let '(count, read) := c in
        let plen := (psize - Z.of_N read)%Z in
        do r <- read_payloads (N.to_nat count) srs (N.odd flags) property (dropN read data) (plen - padding) 0;
        if negb srs && negb (plen =? Z.of_N (snd r) + padding)%Z then Err AssertionError
        else Ok (mkK (fst r) padding plen read (read + snd r)).

(** asf.py:51-58 AsfReadMode, 60-66 Object; [o_osize]: osize, in SRS mode the size that is in a data object *)
Inductive mode := Sample | Main | Stored.
Definition is_stored (m : mode) : bool := match m with Stored => true | _ => false end.
Record object := mkO { o_guid : bytes; o_size : N; o_osize : N; o_header : bytes; o_start : N }.
Definition o_data (o : object) : N := o_start o + lenN (o_header o).
Definition guid_is (g : bytes) (o : object) : bool := beqb (o_guid o) g.
(** stream.read(n) at [pos] *)
Definition read_n (f : bytes) (pos : N) (n : Z) : result bytes := if (n <? -1)%Z then Err ValueError else Ok (read_at f pos n).
(** the number of packets and their size: asf.py:140-143 and main.py:1447-1450 and the like; [size]: that of the data object *)
Definition packet_count (header : bytes) : result N := unpack 8 header 40.
Definition packet_size (header : bytes) (size count : N) : result Z :=
  if count =? 0 then Err ZeroDivision else Ok ((Z.of_N size - Z.of_N (lenN header)) / Z.of_N count)%Z.
(** asf.py:146-158: the end of [n] packets without the data of their payloads *)
Fixpoint stored_end (fuel : nat) (f : bytes) (psize : Z) (n off : N) : result N :=
  match fuel with
  | O => Err OutOfFuel
  | S fuel =>
    if n =? 0 then Ok off
    else do k <- get_packet true (dropN off f) psize; stored_end fuel f psize (n - 1) (off + k_used k)
  end.
(** asf.py:95-168 AsfReader.read at [pos]; None: no room for a header.  The assertion of 99-103 is in what leaves an object
    unread, [all_read]. *)
Definition asf_next (m : mode) (f : bytes) (pos : N) : result (option object) :=
  if lenN f <? pos + 24 then Ok None
  else
    let header := sub pos 24 f in
    let guid := takeN 16 header in
    do size <- unpack 8 header 16;
    if match m with Sample => negb (beqb guid DATA_OBJECT) && (lenN f <? pos + size) | _ => false end then Err ValueError
    else
      let header := header ++ (if beqb guid HEADER_OBJECT then sub (pos + 24) 6 f else if beqb guid DATA_OBJECT then sub (pos + 24) 26 f else []) in
      if is_stored m && beqb guid DATA_OBJECT then
        do count <- packet_count header;
        do psize <- packet_size header size count;
        do e <- stored_end (1 + length f) f psize count (pos + lenN header);
        Ok (Some (mkO guid (e - pos) size header pos))
      else Ok (Some (mkO guid size size header pos)).
(** asf.py:170-183 read_contents: also where to read on *)
Definition asf_contents (f : bytes) (o : object) : result (bytes * N) :=
  do d <- read_n f (o_data o) (Z.of_N (o_size o) - Z.of_N (lenN (o_header o))); Ok (d, o_data o + lenN d).
(** asf.py:192-196 skip_contents, when nothing has been read; where to read on *)
Definition asf_skip (o : object) : N := o_start o + o_size o.
Section Loop.
Context {S : Type}.
(** [while ar.read() and not done: ...] from [pos] on; [stop]: done.  An action gives where to read on.
    asf.py:198-202 move_to_child: [o_data]. *)
Fixpoint asf_loop (fuel : nat) (m : mode) (stop : S -> bool) (act : S -> object -> result (S * N)) (f : bytes) (pos : N) (s : S) : result S :=
  match fuel with
  | O => Err OutOfFuel
  | Datatypes.S fuel =>
    do o <- asf_next m f pos;
    match o with
    | None => Ok s
    | Some o => if stop s then Ok s else do r <- act s o; asf_loop fuel m stop act f (snd r) (fst r)
    end
  end.
Definition asf_run (m : mode) (stop : S -> bool) (act : S -> object -> result (S * N)) (f : bytes) (s : S) : result S :=
  asf_loop (1 + length f) m stop act f 0 s.
(** [for i in range(...)]: [n] packets from [off] on, read with asf.py:185-190 read_data_part.  An action gives whether to
    break.  [exact]: main.py:3296, the packets have to be complete. *)
Fixpoint packets (fuel : nat) (exact : bool) (act : S -> N -> bytes -> parsed -> result (S * bool)) (f : bytes) (psize : Z) (n off : N) (s : S) : result S :=
  match fuel with
  | O => Err OutOfFuel
  | Datatypes.S fuel =>
    if n =? 0 then Ok s
    else
      do data <- read_n f off psize;
      if exact && negb (Z.of_N (lenN data) =? psize)%Z then Err AssertionError
      else
        do k <- get_packet false data psize;
        do r <- act s off data k;
        if snd r then Ok (fst r) else packets fuel exact act f psize (n - 1) (off + Z.to_N psize) (fst r)
  end.
End Loop.
(** If the packets do not fill the object, read_done stays False and the next read fails (asf.py:99-103, 186-188). *)
Definition all_read (o : object) (psize : Z) (count : N) : result N :=
  if (Z.of_N (o_data o) + psize * Z.of_N count =? Z.of_N (asf_skip o))%Z then Ok (asf_skip o) else Err AssertionError.

(** ** main.py:1425-1539 profile_wmv *)
(** the tracks, other_length, the CRC, the padding of the last data object; padding_amount is its length *)
Record pstate := mkP { p_tracks : tracks; p_other : N; p_crc : N; p_padding : bytes }.
(** 1469-1491: the tracks, payloads_sizes, headers_sizes *)
Fixpoint profile_pays (ys : list pay) (ts : tracks) (sizes headers : Z) : result (tracks * Z * Z) :=
  match ys with
  | [] => Ok (ts, sizes, headers)
  | y :: ys =>
    let ts := with_new (y_stream y) ts in
    do t <- get_track (y_stream y) ts;
    if negb (Z.of_N (lenN (y_data y)) =? y_len y)%Z || negb (lenN (y_header y) =? y_hsize y) then Err AssertionError
    else profile_pays ys (set_track (y_stream y) (add_data t (lenN (y_data y)) (y_data y)) ts) (sizes + y_len y) (headers + Z.of_N (y_hsize y))
  end.
(** 1452-1507.  The assertions of 1496-1500 and 1505 follow from that of 1493. *)
Definition profile_packet (p : pstate) (off : N) (data : bytes) (k : parsed) : result (pstate * bool) :=
  do r <- profile_pays (k_pays k) (p_tracks p) 0 0;
  let '(ts, sizes, headers) := r in
  if negb (k_plen k - k_pad k =? sizes + headers)%Z then Err AssertionError
  else Ok (mkP ts (p_other p + (lenN data - Z.to_N sizes)) (zcrc32 data (p_crc p)) (p_padding p ++ dropN (lenN data - Z.to_N (k_pad k)) data), false).
(** 1517-1524 *)
Definition profile_stream (data : bytes) (ts : tracks) : result tracks :=
  do flags <- unpack 2 data 48;
  let id := flags mod 16 in
  match get_track id ts with Ok _ => Err AssertionError | Err _ => Ok (set_track id (new_track id) ts) end.
Definition profile_step (f : bytes) (p : pstate) (o : object) : result (pstate * N) :=
  let p := mkP (p_tracks p) (p_other p + lenN (o_header o)) (zcrc32 (o_header o) (p_crc p)) (p_padding p) in
  if guid_is HEADER_OBJECT o then Ok (p, o_data o)
  else if guid_is DATA_OBJECT o then
    do count <- packet_count (o_header o);
    do psize <- packet_size (o_header o) (o_size o) count;
    do p <- packets (1 + length f) false profile_packet f psize count (o_data o) (mkP (p_tracks p) (p_other p) (p_crc p) []);
    do next <- all_read o psize count;
    Ok (p, next)
  else
    do r <- asf_contents f o;
    let data := fst r in
    do ts <- (if guid_is STREAM_OBJECT o then profile_stream data (p_tracks p) else Ok (p_tracks p));
    (* 1526-1529: only a warning *)
    do _ <- (if guid_is FILE_OBJECT o then unpack 8 data 16 else Ok 0);
    Ok (mkP ts (p_other p + lenN data) (zcrc32 data (p_crc p)) (p_padding p), snd r).
(** 1541-1580 wmv_profile_sample; ValueError: IncompleteSample *)
Definition wmv_profile (name : text) (f : bytes) : result (file_data * tracks * bytes) :=
  do p <- asf_run Sample never (profile_step f) f (mkP [] 0 0 []);
  if lenN f =? p_other p + sum_lengths (p_tracks p) then
    Ok ({| fd_flags := NEW_FLAGS; fd_appname := []; fd_sample_name := name; fd_size := lenN f; fd_crc32 := p_crc p |}, p_tracks p, p_padding p)
  else Err ValueError.

(** ** main.py:1992-2050 wmv_create_srs *)
(** main.py:342-347 and 488-493 serialize_as_asf *)
Definition asf_object (guid data : bytes) : result bytes := do size <- pack 8 (lenN data + 24); Ok (guid ++ size ++ data).
Definition all_zero (d : bytes) : bool := beqb d (repN (lenN d) x00).
Definition srs_objects (app : text) (fd : file_data) (ts : list track_data) (padding : bytes) : result bytes :=
  do x <- (do d <- serialize_file app fd; asf_object SRS_FILE d);
  do l <- mapR (fun t => do d <- serialize_track t; asf_object SRS_TRACK d) ts;
  do p <- (if all_zero padding then Ok [] else asf_object SRS_PADDING padding);
  Ok (x ++ concat l ++ p).
Definition create_packet (out : bytes) (off : N) (data : bytes) (k : parsed) : result (bytes * bool) :=
  Ok (out ++ takeN (k_hlen k) data ++ concat (map y_header (k_pays k)), false).
Definition create_step (app : text) (fd : file_data) (ts : list track_data) (padding : bytes) (f out : bytes) (o : object) : result (bytes * N) :=
  let out := out ++ o_header o in
  if guid_is DATA_OBJECT o then
    do count <- packet_count (o_header o);
    do psize <- packet_size (o_header o) (o_size o) count;
    do out <- packets (1 + length f) false create_packet f psize count (o_data o) out;
    do x <- srs_objects app fd ts padding;
    do next <- all_read o psize count;
    Ok (out ++ x, next)
  else do r <- asf_contents f o; Ok (out ++ fst r, snd r).
(** srs.py:331-366: profile and create.  [offset]: what the option -c has found for each track. *)
Definition wmv_srs (app name : text) (big : bool) (offset : N -> N) (f : bytes) : result bytes :=
  do p <- wmv_profile name f;
  let '(fd, ts, padding) := p in
  match ts with
  | [] => Err ValueError                        (* srs.py:341 no A/V data *)
  | _ => asf_run Main never (create_step app fd (map (stored_track big offset) ts) padding f) f []
  end.

(** ** main.py:821-840 wmv_load_srs *)
Record lstate := mkL { l_file : option file_data; l_padding : option bytes; l_tracks : tracks }.
Definition load_step (f : bytes) (s : lstate) (o : object) : result (lstate * N) :=
  if guid_is SRS_FILE o then
    do r <- asf_contents f o; do d <- parse_file_data (fst r); Ok (mkL (Some d) None (l_tracks s), snd r)
  else if guid_is SRS_TRACK o then
    do r <- asf_contents f o; do t <- parse_track (fst r); Ok (mkL (l_file s) (l_padding s) (set_track (td_number t) (track_of t) (l_tracks s)), snd r)
  else if guid_is SRS_PADDING o then
    do r <- asf_contents f o;
    match l_file s with None => Err UnboundLocal | Some _ => Ok (mkL (l_file s) (Some (fst r)) (l_tracks s), snd r) end
  else Ok (s, asf_skip o).
Definition wmv_load (f : bytes) : result lstate := asf_run Stored never (load_step f) f (mkL None None []).
Definition wmv_load_srs (f : bytes) : result (file_data * tracks) :=
  do s <- wmv_load f;
  match l_file s with None => Err UnboundLocal | Some d => Ok (d, l_tracks s) end.

(** ** main.py:2615-2733 wmv_find_sample_streams *)
(** 2649-2704: a payload with its place, and what is kept of the track *)
Definition find_payload (t : track) (check : bytes) (y : pay) (at_ : N) : result (track * bytes) :=
  let sig := td_signature (t_td t) in
  let len := td_length (t_td t) in
  if (t_offset t =? 0)%Z || (lenN check <? lenN sig) then
    let '(t, check) :=
      if (0 <? lenN check) && (lenN check <? lenN sig) then
        let more := check ++ takeN (N.min (lenN sig) (Z.to_N (y_len y) + lenN check) - lenN check) (y_data y) in
        if starts_with Byte.eqb more sig then (t, more) else (located t 0 0, [])
      else (t, check) in
    match check with
    | [] =>
      match sig with
      | [] => Err IndexError
      | _ =>
        match find_start sig (y_data y) 0 with
        | Some (pos, check) => Ok (located t (Z.of_N (at_ + pos)) (N.min len (lenN (y_data y) - pos)), check)
        | None => Ok (t, check)
        end
      end
    | _ => Ok (located t (t_offset t) (N.min (len - t_match t) (Z.to_N (y_len y))), check)
    end
  else if t_match t <? len then Ok (located t (t_offset t) (t_match t + N.min (len - t_match t) (Z.to_N (y_len y))), check)
  else Ok (t, check).
(** 2641-2718: the payloads of a packet; [at_]: packet.data_file_offset + prev_payloads_size *)
Fixpoint find_pays (ys : list pay) (at_ : N) (s : fstate) : result fstate :=
  match ys with
  | [] => Ok s
  | y :: ys =>
    let '(ts, checks, done) := s in
    let n := y_stream y in
    let ts := with_new n ts in
    do t <- get_track n ts;
    do r <- find_payload t (checks n) y (at_ + y_hsize y);
    let ts := set_track n (fst r) ts in
    find_pays ys (at_ + y_hsize y + Z.to_N (y_len y)) (ts, upd checks n (snd r), if counting t (checks n) then all_found ts else done)
  end.
Definition find_packet (s : fstate) (off : N) (data : bytes) (k : parsed) : result (fstate * bool) :=
  do s <- find_pays (k_pays k) off s; Ok (s, fs_done s).
Definition find_step (f : bytes) (s : fstate) (o : object) : result (fstate * N) :=
  if guid_is DATA_OBJECT o then
    do count <- packet_count (o_header o);
    do psize <- packet_size (o_header o) (o_size o) count;
    do s <- packets (1 + length f) false find_packet f psize count (o_data o) s;
    Ok ((fst s, true), asf_skip o)
  else Ok (s, asf_skip o).
Definition wmv_find (ts : tracks) (main : bytes) : result tracks :=
  do s <- asf_run Main fs_done (find_step main) main (ts, fun _ => [], false);
  Ok (fst (fst s)).

(** ** main.py:3263-3350 wmv_extract_sample_streams *)
(** 3290-3292: how many packets before [o] are left out; the loop over them is not gone through here *)
Definition left_out (start : N) (psize : Z) (count o : N) : N :=
  if (Z.of_N o <=? Z.of_N start + psize)%Z then 0
  else if (psize <=? 0)%Z then count
  else N.min count (Z.to_N ((Z.of_N o - Z.of_N start - 1) / psize)).
Definition extract_payload (t : track) (y : pay) (at_ : N) : option track :=
  if (t_offset t <=? Z.of_N at_ + y_len y)%Z then
    let d := match t_file t with Some d => d | None => [] end in
    Some (with_file t (if lenN d <? td_length (t_td t) then
                         d ++ (if (t_offset t <=? Z.of_N at_)%Z then y_data y else dropN (Z.to_N (t_offset t) - at_) (y_data y))
                       else d))
  else None.
Fixpoint extract_pays (ys : list pay) (at_ : N) (s : tracks * bool) : result (tracks * bool) :=
  match ys with
  | [] => Ok s
  | y :: ys =>
    let n := y_stream y in
    let ts := with_new n (fst s) in
    do t <- get_track n ts;
    extract_pays ys (at_ + y_hsize y + Z.to_N (y_len y))
      (match extract_payload t y (at_ + y_hsize y) with
       | Some t => let ts := set_track n t ts in (ts, forallb (fun t => complete (snd t)) ts)
       | None => (ts, snd s)
       end)
  end.
Definition extract_packet (s : tracks * bool) (off : N) (data : bytes) (k : parsed) : result ((tracks * bool) * bool) :=
  do s <- extract_pays (k_pays k) off s; Ok (s, snd s).
Definition extract_step (f : bytes) (first : N) (s : tracks * bool) (o : object) : result ((tracks * bool) * N) :=
  if guid_is DATA_OBJECT o then
    do count <- packet_count (o_header o);
    do psize <- packet_size (o_header o) (o_size o) count;
    let out := left_out (o_data o) psize count first in
    do s <- packets (1 + length f) true extract_packet f psize (count - out) (Z.to_N (Z.of_N (o_data o) + Z.of_N out * psize)) s;
    Ok (s, asf_skip o)
  else Ok (s, asf_skip o).
Definition wmv_extract (ts : tracks) (main : bytes) : result tracks :=
  do s <- asf_run Sample snd (extract_step main (min_offset ts)) main (ts, false);
  Ok (fst s).

(** ** main.py:3666-3745 wmv_rebuild_sample *)
(** the sample, what is left in the files of the tracks, padding_index *)
Record rstate := mkR { r_out : bytes; r_files : list (N * option bytes); r_index : N }.
(** 3716-3728 *)
Fixpoint rebuild_pays (ys : list pay) (out : bytes) (files : list (N * option bytes)) : result (bytes * list (N * option bytes)) :=
  match ys with
  | [] => Ok (out, files)
  | y :: ys =>
    match find (fun x => fst x =? y_stream y) files with
    | None => Err KeyError
    | Some (_, file) =>
      if negb (lenN (y_header y) =? y_hsize y) then Err AssertionError
      else
        match file with
        | None => Err AttributeError
        | Some d =>
          do buff <- read_n d 0 (y_len y);
          rebuild_pays ys (out ++ y_header y ++ buff) (map (fun x => if fst x =? y_stream y then (y_stream y, Some (dropN (lenN buff) d)) else x) files)
        end
    end
  end.
(** 3698-3741: [n] packets from [off] on; [stop]: where the object ends.  Also the position behind what has been read last
    and whether read_done has been set on the way: asf.py:185-190 compares with the size of a whole packet. *)
Fixpoint rebuild_packets (fuel : nat) (srs : bytes) (padding : option bytes) (psize : Z) (stop n off : N) (last : N * bool) (s : rstate) : result (rstate * (N * bool)) :=
  match fuel with
  | O => Err OutOfFuel
  | S fuel =>
    if n =? 0 then Ok (s, last)
    else
      let read_done := snd last || (Z.of_N off + psize =? Z.of_N stop)%Z in
      do data <- read_n srs off psize;
      do k <- get_packet true data psize;
      do r <- rebuild_pays (k_pays k) (r_out s ++ takeN (k_hlen k) data) (r_files s);
      let n_pad := Z.to_N (k_pad k) in
      let s := match padding with
               | Some p => mkR (fst r ++ sub (r_index s) n_pad p) (snd r) (r_index s + n_pad)
               | None => mkR (fst r ++ repN n_pad x00) (snd r) (r_index s)
               end in
      rebuild_packets fuel srs padding psize stop (n - 1) (off + k_used k) (off + lenN data, read_done) s
  end.
Definition ours (o : object) : bool := guid_is SRS_FILE o || guid_is SRS_TRACK o || guid_is SRS_PADDING o.
Definition rebuild_step (srs : bytes) (padding : option bytes) (s : rstate) (o : object) : result (rstate * N) :=
  if ours o then Ok (s, asf_skip o)
  else
    let s := mkR (r_out s ++ o_header o) (r_files s) (r_index s) in
    if guid_is DATA_OBJECT o then
      do count <- packet_count (o_header o);
      do psize <- packet_size (o_header o) (o_osize o) count;
      do r <- rebuild_packets (1 + length srs) srs padding psize (asf_skip o) count (o_data o) (o_start o, false) s;
      Ok (fst r, if snd (snd r) then fst (snd r) else asf_skip o)
    else do r <- asf_contents srs o; Ok (mkR (r_out s ++ fst r) (r_files s) (r_index s), snd r).
(** srs_data has been loaded before; its padding_bytes are loaded once more here *)
Definition wmv_rebuild (ts : tracks) (srs : bytes) : result (bytes * bytes) :=
  do l <- wmv_load srs;
  do s <- asf_run Stored never (rebuild_step srs (l_padding l)) srs (mkR [] (map (fun t => (fst t, t_file (snd t))) ts) 0);
  Ok (r_out s, r_out s).

Definition wmv_restore (no_stored : bool) (srs main : bytes) : result outcome :=
  srs_rebuild wmv_load_srs wmv_find wmv_extract wmv_rebuild false false no_stored srs main.
