(** Rar: RAR / SRR blocks and the block reader (rescene/rar.py). *)
From Verif Require Import Base.

(** rar.py:212-236 BlockType *)
Definition T_SrrHeader : N := 0x69.
Definition T_SrrStored : N := 0x6A.
Definition T_SrrOso : N := 0x6B.
Definition T_SrrPadding : N := 0x6C.
Definition T_SrrRarFile : N := 0x71.
Definition T_RarMin : N := 0x72.
Definition T_RarVolume : N := 0x73.
Definition T_RarFile : N := 0x74.
Definition T_RarOldRec : N := 0x78.
Definition T_RarNewSub : N := 0x7A.
Definition T_RarMax : N := 0x7B.

(** rar.py:338-346 and the flag constants of the block classes *)
Definition F_LONG : N := 0x8000.
Definition F_APPNAME : N := 0x1.
Definition F_RR_REMOVED : N := 0x1.
Definition F_SPLIT_BEFORE : N := 0x1.
Definition F_SPLIT_AFTER : N := 0x2.
Definition F_DIRECTORY : N := 0xE0.
Definition F_LARGE : N := 0x100.
Definition F_UNICODE : N := 0x200.
Definition F_SALT : N := 0x400.
Definition F_EXT_TIME : N := 0x1000.
Definition F_END_DATACRC : N := 0x2.
Definition F_END_VOLNUMBER : N := 0x8.
Definition COMPR_STORING : N := 0x30.

(** rar.py:84-91 _parse_dos_time: (year, month, day, hour, minute, second) *)
Definition parse_dos_time (stamp : N) : N * N * N * N * N * N :=
  let sec := N.land stamp 0x1F in let stamp := N.shiftr stamp 5 in
  let mnt := N.land stamp 0x3F in let stamp := N.shiftr stamp 6 in
  let hr := N.land stamp 0x1F in let stamp := N.shiftr stamp 5 in
  let day := N.land stamp 0x1F in let stamp := N.shiftr stamp 5 in
  let mon := N.land stamp 0x0F in let stamp := N.shiftr stamp 4 in
  let yr := N.land stamp 0x7F + 1980 in
  (yr, mon, day, hr, mnt, sec * 2).

(** rar.py:109-126 _parse_xtime.  Only the position (and a possible struct.error) is
    modelled; the sub-second part of the value is not.  [dos] tells whether a
    DOS time was passed in (it is a non-empty tuple, so it counts as true). *)
Definition parse_xtime (flag : N) (data : bytes) (pos : N) (dos : bool) : result N :=
  if has flag 8 then
    do pos <- (if dos then Ok pos else do _ <- unpack 4 data pos; Ok (pos + 4));
    (fix loop (cnt : nat) (pos : N) : result N :=
       match cnt with
       | O => Ok pos
       | S c => do _ <- unpack 1 data pos; loop c (pos + 1)
       end) (N.to_nat (N.land flag 3)) pos
  else Ok pos.

(** rar.py:93-107 _parse_ext_time *)
Definition parse_ext_time (data : bytes) (pos : N) : result N :=
  do fp <- (if pos + 2 <=? lenN data
            then do f <- unpack 2 data pos; Ok (f, pos + 2) else Ok (0, pos));
  let '(flags, pos) := fp in
  do pos <- parse_xtime (N.shiftr flags 12) data pos true;
  do pos <- parse_xtime (N.shiftr flags 8) data pos false;
  do pos <- parse_xtime (N.shiftr flags 4) data pos false;
  parse_xtime flags data pos false.

(** rar.py:153-156 UnicodeFilename.std_byte for [n] successive positions, the value
    put being [f b] (rar.py:185-191) *)
Fixpoint put_run (std : bytes) (pos : N) (f : N -> N) (n : nat) : result (list N) :=
  match n with
  | O => Ok []
  | S n' =>
    match dropN pos std with
    | [] => Err IndexError
    | b :: _ => do r <- put_run std (pos + 1) f n'; Ok (f (b2n b) :: r)
    end
  end.

(** rar.py:162-192 UnicodeFilename.decode, the while loop.  [enc] is encdata from encpos on,
    the result is the list of 16 bit units put in buf.  Each iteration takes at least one
    byte of [enc], so the length of [enc] is enough fuel. *)
Fixpoint uni_loop (fuel : nat) (std enc : bytes) (hi flags : N) (flagbits pos : N)
  : result (list N) :=
  match fuel with
  | O => Err OutOfFuel
  | S fuel =>
    match enc with
    | [] => Ok []
    | e0 :: enc0 =>
      let '(flags, flagbits, enc1) :=
        if flagbits =? 0 then (b2n e0, 8, enc0) else (flags, flagbits, enc) in
      let flagbits := flagbits - 2 in
      let t := N.land (N.shiftr flags flagbits) 3 in
      match enc1 with
      | [] => Err IndexError
      | c :: enc2 =>
        if t =? 0 then
          do r <- uni_loop fuel std enc2 hi flags flagbits (pos + 1); Ok (b2n c :: r)
        else if t =? 1 then
          do r <- uni_loop fuel std enc2 hi flags flagbits (pos + 1);
          Ok (b2n c + 256 * hi :: r)
        else if t =? 2 then
          match enc2 with
          | [] => Err IndexError
          | h :: enc3 =>
            do r <- uni_loop fuel std enc3 hi flags flagbits (pos + 1);
            Ok (b2n c + 256 * b2n h :: r)
          end
        else
          let n := b2n c in
          if has n 0x80 then
            match enc2 with
            | [] => Err IndexError
            | corr :: enc3 =>
              let k := N.land n 0x7F + 2 in
              do run <- put_run std pos
                          (fun b => N.land (b + b2n corr) 0xFF + 256 * hi) (N.to_nat k);
              do r <- uni_loop fuel std enc3 hi flags flagbits (pos + k);
              Ok (run ++ r)
            end
          else
            let k := n + 2 in
            do run <- put_run std pos (fun b => b) (N.to_nat k);
            do r <- uni_loop fuel std enc2 hi flags flagbits (pos + k);
            Ok (run ++ r)
      end
    end
  end.

(** rar.py:162-192 UnicodeFilename.decode *)
Definition unicode_decode (std enc : bytes) : result text :=
  match enc with
  | [] => Err IndexError
  | h :: enc' =>
    do u <- uni_loop (S (List.length enc')) std enc' (b2n h) 0 0 0;
    Ok (utf16_units u)
  end.

(** bytes.find(b"\0") *)
Definition find_zero (l : bytes) : option N := find_sub Byte.eqb [x00] l.

(** rar.py:1036-1046, the file name part of RarPackedFileBlock.__init__.  Without a zero
    byte find() gives -1: std is name[:-1] and encdata is the whole name. *)
Definition decode_name (flags : N) (name : bytes) : result text :=
  if has flags F_UNICODE then
    match find_zero name with
    | Some i => unicode_decode (takeN i name) (dropN (i + 1) name)
    | None => unicode_decode (takeN (lenN name - 1) name) name
    end
  else Ok (cp1252 name).

Record file_info := mkFile {
  f_packed : N; f_unpacked : N; f_os : N; f_crc : N; f_time : N;
  f_ver : N; f_method : N; f_attr : N; f_name : text }.

Inductive kind :=
| KPlain
| KSrrHeader (app : text)
| KStored (size : N) (name : text)
| KRarFile (name : text)
| KOso (size hash : N) (name : text)
| KPadding (size : N)
| KVolume (r1 r2 : N)
| KFile (f : file_info)
| KNewSub (f : file_info) (rec : option (N * N))  (* recovery_sectors, data_sectors *)
| KOldRec (packed ver rs ds : N)
| KEnd.

(** rar.py:348-370 attributes of RarBlock plus those of the subclass ([b_kind]) *)
Record block := mkBlock {
  b_pos : N;      (* block_position *)
  b_crc : N; b_type : N; b_flags : N; b_hsize : N;
  b_add : N;      (* add_size *)
  b_raw : bytes;  (* _rawdata *)
  b_kind : kind }.

(** rar.py:1007-1063 RarPackedFileBlock.__init__ after the basic header: the file fields and
    the position after what was read. *)
Definition parse_file (flags : N) (raw : bytes) : result (file_info * N) :=
  (* struct.unpack_from("<IIBIIBBHI", raw, 7): 25 bytes or struct.error *)
  if lenN raw <? 32 then Err StructError else
  do packed <- unpack 4 raw 7;
  do unpacked <- unpack 4 raw 11;
  do os <- unpack 1 raw 15;
  do fcrc <- unpack 4 raw 16;
  do ftime <- unpack 4 raw 20;
  do ver <- unpack 1 raw 24;
  do meth <- unpack 1 raw 25;
  do nlen <- unpack 2 raw 26;
  do attr <- unpack 4 raw 28;
  do hi <- (if has flags F_LARGE
            then do a <- unpack 4 raw 32; do b <- unpack 4 raw 36; Ok (a, b, 40)
            else Ok (0, 0, 32));
  let '(hp, hu, p) := hi in
  let name := sub p nlen raw in
  let p := p + nlen in
  do fname <- decode_name flags name;
  let p := if has flags F_SALT then p + 8 else p in
  do p <- (if has flags F_EXT_TIME then parse_ext_time raw p else Ok p);
  Ok (mkFile (packed + hp * 0x100000000) (unpacked + hu * 0x100000000)
             os fcrc ftime ver meth attr fname, p).

(** rar.py:443-452 _unpack_file_name *)
Definition unpack_file_name (raw : bytes) (p : N) : result text :=
  do n <- unpack 2 raw p;
  decode_utf8 (sub (p + 2) n raw).

(** rar.py:348-370 RarBlock.__init__, then the subclass picked from BTYPES_CLASSES
    (rar.py:1354-1370) for type [ty] *)
Definition make_block (ty : N) (raw : bytes) (pos : N) : result block :=
  do crc <- unpack 2 raw 0;
  do rty <- unpack 1 raw 2;
  do flags <- unpack 2 raw 3;
  do hsize <- unpack 2 raw 5;
  (* rar.py:588: the stored file block is only read when filepos is not 0 *)
  if (ty =? T_SrrStored) && (pos =? 0) then Err AttributeError else
  do add <- (if has flags F_LONG then unpack 4 raw 7 else Ok 0);
  let mk a k := Ok (mkBlock pos crc rty flags hsize a raw k) in
  if ty =? T_SrrHeader then               (* rar.py:506-522 *)
    if has flags F_APPNAME then
      do n <- unpack 2 raw 7;
      do app <- decode_utf8 (sub 9 n raw);
      mk add (KSrrHeader app)
    else mk add (KSrrHeader [])
  else if ty =? T_SrrStored then          (* rar.py:588-598 *)
    do size <- unpack 4 raw 7;
    do name <- unpack_file_name raw 11;
    mk add (KStored size name)
  else if ty =? T_SrrRarFile then         (* rar.py:721-725 *)
    do name <- unpack_file_name raw 7;
    mk add (KRarFile name)
  else if ty =? T_SrrOso then             (* rar.py:775-789 *)
    do size <- unpack 8 raw 7;
    do hash <- unpack 8 raw 15;
    do name <- unpack_file_name raw 23;
    mk add (KOso size hash name)
  else if ty =? T_SrrPadding then         (* rar.py:834-842 *)
    do size <- unpack 4 raw 7;
    mk add (KPadding size)
  else if ty =? T_RarVolume then          (* rar.py:907-911 *)
    do r1 <- unpack 2 raw 7;
    do r2 <- unpack 4 raw 9;
    mk add (KVolume r1 r2)
  else if ty =? T_RarFile then            (* rar.py:1007-1070 *)
    do fp <- parse_file flags raw;
    let '(f, _) := fp in
    mk (f_packed f) (KFile f)
  else if ty =? T_RarNewSub then          (* rar.py:1233-1244 *)
    do fp <- parse_file flags raw;
    let '(f, p) := fp in
    if teqb (f_name f) (str "RR") then
      do rs <- unpack 4 raw (p + 8);
      do ds <- unpack 8 raw (p + 12);
      mk (f_packed f) (KNewSub f (Some (rs, ds)))
    else mk (f_packed f) (KNewSub f None)
  else if ty =? T_RarOldRec then          (* rar.py:1265-1279 *)
    do packed <- unpack 4 raw 7;
    do ver <- unpack 1 raw 11;
    do rs <- unpack 2 raw 12;
    do ds <- unpack 4 raw 14;
    mk packed (KOldRec packed ver rs ds)
  else if ty =? T_RarMax then             (* rar.py:1309-1323 *)
    do p <- (if has flags F_END_DATACRC then do _ <- unpack 4 raw 7; Ok 11 else Ok 7);
    do _ <- (if has flags F_END_VOLNUMBER then unpack 2 raw p else Ok 0);
    mk add KEnd
  else mk add KPlain.

(** ** Constructing SRR blocks (the bytes of block_bytes()) *)

(** rar.py:372-379 _write_header *)
Definition write_header (crc ty flags hsize : N) : result bytes :=
  do a <- pack 2 crc; do b <- pack 1 ty; do c <- pack 2 flags; do d <- pack 2 hsize;
  Ok (a ++ b ++ c ++ d).

(** rar.py:454-466 _pack_file_name (os.sep is "/") *)
Definition pack_file_name (name : text) : result bytes :=
  do b <- encode_utf8 name;
  do n <- pack 2 (lenN b);
  Ok (n ++ b).

(** rar.py:523-545 SrrHeaderBlock(appname=...) *)
Definition srr_header_bytes (app : text) : result bytes :=
  do d <- encode_utf8 app;
  if 0 <? lenN app then
    do h <- write_header 0x6969 0x69 F_APPNAME (7 + 2 + lenN d);
    do n <- pack 2 (lenN d);
    Ok (h ++ n ++ d)
  else write_header 0x6969 0x69 0 7.

(** utility.py:368-378 is_good_srr: none of \ : * ? dquote < > | *)
Definition illegal_windows : text := [92; 58; 42; 63; 34; 60; 62; 124].
Definition is_good_srr (name : text) : bool :=
  forallb (fun c => negb (existsb (N.eqb c) name)) illegal_windows.

(** rar.py:624-651 SrrStoredFileBlock._write_rawdata (file_size is never negative here) *)
Definition stored_header_bytes (name : text) (size : N) : result bytes :=
  do nd <- pack_file_name name;
  if negb (is_good_srr name) then Err AttributeError else
  let length := 7 + 4 + lenN nd in
  if (lenN name =? 0) || (0x10000 <=? length) then Err AttributeError else
  do h <- write_header 0x6A6A 0x6A F_LONG length;
  do s <- pack 4 size;
  Ok (h ++ s ++ nd).

(** rar.py:721-737 SrrRarFileBlock(file_name=...).  An empty name makes Python take the
    reading branch with None as buffer: TypeError. *)
Definition rarfile_bytes (name : text) : result bytes :=
  if lenN name =? 0 then Err TypeError else
  do nd <- pack_file_name name;
  do h <- write_header 0x7171 0x71 F_RR_REMOVED (7 + lenN nd);
  Ok (h ++ nd).

(** "%016x" % n for n < 2^64 *)
Definition hex_digit (d : N) : N := if d <? 10 then 48 + d else 87 + d.
Fixpoint hex_fmt (k : nat) (n : N) : text :=
  match k with O => [] | S k' => hex_fmt k' (n / 16) ++ [hex_digit (n mod 16)] end.
Definition hex16 (n : N) : text := hex_fmt 16 n.
(** int(s, 16), only plain digits (no sign, prefix, blanks or underscores) *)
Definition unhex1 (c : N) : option N :=
  if (48 <=? c) && (c <=? 57) then Some (c - 48)
  else if (97 <=? c) && (c <=? 102) then Some (c - 87)
  else if (65 <=? c) && (c <=? 70) then Some (c - 55) else None.
Fixpoint unhex (acc : N) (t : text) : result N :=
  match t with
  | [] => Ok acc
  | c :: t' => match unhex1 c with Some d => unhex (acc * 16 + d) t' | None => Err ValueError end
  end.

(** rar.py:790-807 SrrOsoHashBlock(file_size, file_name, oso_hash) *)
Definition oso_bytes (size : N) (hash : text) (name : text) : result bytes :=
  do nd <- pack_file_name name;
  if negb (lenN hash =? 16) then Err AssertionError else
  do h <- write_header 0x6B6B 0x6B 0 (7 + 8 + 8 + lenN nd);
  do s <- pack 8 size;
  do v <- unhex 0 hash;
  do o <- pack 8 v;
  Ok (h ++ s ++ o ++ nd).

(** rar.py:843-854 SrrRarPaddingBlock(padding_bytes=...) *)
Definition padding_bytes (pad : bytes) : result bytes :=
  do h <- write_header 0x6C6C 0x6C F_LONG 11;
  do s <- pack 4 (lenN pad);
  Ok (h ++ s ++ pad).

(** ** The reader *)
Inductive mode := RAR | SRR.
Definition mode_eqb (a b : mode) : bool :=
  match a, b with RAR, RAR => true | SRR, SRR => true | _, _ => false end.

Definition RAR5_MARKER : bytes := [x52; x61; x72; x21; x1a; x07; x01; x00].

(** rar.py:1383-1454 RarReader.__init__ on a whole file (offset 0), enable_sfx=False *)
Definition reader_mode (data : bytes) : result mode :=
  if lenN data <? 20 then Err ValueError
  else if beqb (takeN 8 data) RAR5_MARKER then Err ValueError
  else match dropN 2 data with
       | t :: _ =>
         if b2n t =? T_RarMin then Ok RAR
         else if b2n t =? T_SrrHeader then Ok SRR
         else Err ValueError
       | [] => Err ValueError
       end.

(** Reader state: stream position, _rar_end_block_encountered, and the attribute
    recovery_blocks_removed ([None]: not set yet; __init__ sets a differently named
    attribute, rar.py:1432). *)
Record rst := mkRst { r_pos : N; r_end : bool; r_rr : option bool }.

(** rar.py:1495 / 1503 a padding block built from the rest of the file *)
Definition make_padding (pad : bytes) (pos : N) : result block :=
  do raw <- padding_bytes pad;
  Ok (mkBlock pos 0x6C6C 0x6C F_LONG 11 0 raw (KPadding (lenN pad))).

(** rar.py:1541-1545 *)
Definition is_recovery_raw (ty hsize : N) (buf : bytes) : bool :=
  (ty =? T_RarOldRec) ||
  ((ty =? T_RarNewSub) && (34 <? hsize) &&
   match unpack 2 buf 26 with Ok n => n =? 2 | Err _ => false end &&
   beqb (sub 32 2 buf) (bstr "RR")).

(** rar.py:1462-1616 RarReader._read: None at the end of the file, else the block and the
    state after it *)
Definition read1 (m : mode) (data : bytes) (st : rst) : result (option (block * rst)) :=
  let len := lenN data in
  let pos := r_pos st in
  if pos =? len then Ok None
  else if len <? pos + 7 then
    if r_end st && mode_eqb m RAR then
      do b <- make_padding (dropN pos data) pos;
      Ok (Some (b, mkRst (N.max pos len) (r_end st) (r_rr st)))
    else Err EnvironmentError
  else
    let hb := sub pos 7 data in
    do ty <- unpack 1 hb 2;
    do flags <- unpack 2 hb 3;
    do hsize <- unpack 2 hb 5;
    if r_end st && mode_eqb m RAR then
      do b <- make_padding (hb ++ dropN (pos + 7) data) pos;
      Ok (Some (b, mkRst len (r_end st) (r_rr st)))
    else
    let ended := r_end st || (ty =? T_RarMax) in
    if (hsize <? 7) || (len <? pos + hsize) then Err EnvironmentError
    else if hsize =? 7 then
      do b <- (if ty =? T_SrrHeader then make_block T_SrrHeader hb pos
               else make_block 0 hb pos);
      Ok (Some (b, mkRst (pos + 7) ended (r_rr st)))
    else
      let buf := sub pos hsize data in
      do add <- (if has flags F_LONG || (ty =? T_RarFile) || (ty =? T_RarNewSub)
                 then unpack 4 buf 7 else Ok 0);
      let is_rec := is_recovery_raw ty hsize buf in
      let p1 := pos + hsize in
      do rp <- (if mode_eqb m SRR then
                  if ty =? T_SrrRarFile then Ok (Some (has flags F_RR_REMOVED), p1)
                  else if is_rec then
                    match r_rr st with
                    | None => Err AttributeError
                    | Some true => Ok (r_rr st, p1)
                    | Some false => Ok (r_rr st, p1 + add)
                    end
                  else Ok (r_rr st, p1)
                else Ok (r_rr st, p1));
      let '(rr, p2) := rp in
      let '(raw, p3) :=
        if ty =? T_SrrStored then (buf, p2 + add)
        else if negb (ty =? T_RarFile) && negb is_rec && (0 <? add) then
          let d := sub p2 add data in (buf ++ d, p2 + lenN d)
        else if mode_eqb m RAR && (0 <? add) then (buf, p2 + add)
        else (buf, p2) in
      do b <- make_block ty raw pos;
      let p4 :=
        match b_kind b with
        | KFile f => if has (b_flags b) F_LARGE && mode_eqb m RAR
                     then pos + hsize + f_packed f else p3
        | _ => p3
        end in
      Ok (Some (b, mkRst p4 ended rr)).

(** rar.py:1618-1632 read_all: iterate until None *)
Fixpoint read_loop (fuel : nat) (m : mode) (data : bytes) (st : rst) : result (list block) :=
  match fuel with
  | O => Err OutOfFuel
  | S fuel =>
    do r <- read1 m data st;
    match r with
    | None => Ok []
    | Some (b, st') => do bs <- read_loop fuel m data st'; Ok (b :: bs)
    end
  end.

Definition st0 : rst := mkRst 0 false None.

Definition read_all (data : bytes) : result (list block) :=
  do m <- reader_mode data;
  read_loop (S (List.length data)) m data st0.

(** main.py:1654-1661 _is_recovery together with the access to recovery_sectors and data_sectors
    that follows it everywhere.  A block of exactly 7 bytes of these types is a plain
    RarBlock without the attributes: AttributeError. *)
Definition is_recovery (b : block) : result (option (N * N)) :=
  match b_kind b with
  | KNewSub _ r => Ok r
  | KOldRec _ _ rs ds => Ok (Some (rs, ds))
  | _ => if (b_type b =? T_RarNewSub) || (b_type b =? T_RarOldRec)
         then Err AttributeError else Ok None
  end.
