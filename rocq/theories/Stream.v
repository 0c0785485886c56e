(** Stream: reading a packed file through its RAR volumes (rescene/rarstream.py). *)
From Verif Require Import Base Path Rar VolName Srr Oso.

Definition F_NEW_NUMBERING : N := 0x10.

(** rarstream.py:282-296 _RarVolume *)
Record vol := mkVol { w_path : text; w_start : Z; w_end : Z; w_off : N }.
(** attributes of RarStream; opened files are not modelled: every read seeks first *)
Record stream := mkStream { t_vols : list vol; t_cur : option vol; t_len : Z; t_pos : Z }.

(** rar.RarReader(path).read_all(): ArchiveNotFoundError for a missing file *)
Definition read_archive (f : fs) (path : text) : result (list block) :=
  match fs_get f path with Some d => read_all d | None => Err FileNotFound end.

(** rarstream.py:38-53 _check *)
Fixpoint check_blocks (bs : list block) : result bool :=
  match bs with
  | [] => Ok false
  | b :: bs =>
    if b_type b =? T_RarFile then if has (b_flags b) F_SPLIT_BEFORE then Err AttributeError else Ok true
    else check_blocks bs
  end.
Definition check (f : fs) (first_rar : text) : result bool :=
  do bs <- read_archive f first_rar; check_blocks bs.

(** rarstream.py:91-128 _process, the loop over the blocks.  [name] is None when no name is known yet.
    Result: volumes found, length of the packed file, is_old_style_naming. *)
Fixpoint process_blocks (path : text) (compressed : bool) (bs : list block)
    (name : option text) (vols : list vol) (len : Z) (old : bool) : result (list vol * Z * bool) :=
  match bs with
  | [] => Ok (vols, len, old)
  | b :: bs =>
    do old <- (if b_type b =? T_RarVolume then
                 match b_kind b with
                 | KVolume _ _ => Ok (if has (b_flags b) F_NEW_NUMBERING then old else true)
                 | _ => Err AttributeError  (* a 7 byte block lacks the constant *)
                 end
               else Ok old);
    if b_type b =? T_RarFile then
      match b_kind b with
      | KFile i =>
        if negb (f_method i =? COMPR_STORING) && negb compressed then Err AttributeError else
        let n := match name with Some n => n | None => f_name i end in
        (* an empty name counts as no name: the next block's is taken *)
        let name := if lenN n =? 0 then None else Some n in
        if teqb n (f_name i) then
          let v := mkVol path len (len + Z.of_N (f_packed i) - 1) (b_pos b + b_hsize b) in
          process_blocks path compressed bs name (vols ++ [v]) (len + Z.of_N (f_packed i))%Z old
        else process_blocks path compressed bs name vols len old
      | _ => Err AttributeError
      end
    else process_blocks path compressed bs name vols len old
  end.
Definition process (f : fs) (path : text) (name : option text) (compressed : bool)
    (vols : list vol) (len : Z) : result (list vol * Z * bool) :=
  let name := match name with
              | Some n => if lenN n =? 0 then None else Some (replace1 SLASH BACKSLASH n)
              | None => None end in
  do bs <- read_archive f path;
  process_blocks path compressed bs name vols len false.

(** rarstream.py:79-82: the loop over the volumes; the name given is passed on unchanged.  The names
    differ all, so there is fuel for as many steps as there are files. *)
Fixpoint open_loop (fuel : nat) (f : fs) (rar_file : text) (name : option text) (compressed : bool)
    (vols : list vol) (len : Z) : result (list vol * Z) :=
  if isfile f rar_file then
    match fuel with
    | O => Err OutOfFuel
    | S fuel =>
      do r <- process f rar_file name compressed vols len;
      let '(vols, len, old) := r in
      do next <- next_archive rar_file old;
      open_loop fuel f next name compressed vols len
    end
  else Ok (vols, len).

(** rarstream.py:60-89 RarStream.__init__ *)
Definition rar_stream (f : fs) (first_rar : text) (name : option text) (middle compressed : bool) : result stream :=
  do ok <- (if middle then Ok true else check f first_rar);
  if negb ok then Err AttributeError else
  do r <- open_loop (List.length f) f first_rar name compressed [] 0;
  let '(vols, len) := r in
  match vols with
  | v :: _ => Ok (mkStream vols (Some v) len 0)
  | [] => Err AttributeError
  end.

Definition vol_has (pos : Z) (v : vol) : bool := ((w_start v <=? pos) && (pos <=? w_end v))%Z.
(** rarstream.py:170-210 seek *)
Definition seek (t : stream) (offset : Z) (origin : N) : result (stream * Z) :=
  let destination :=
    if origin =? 0 then offset
    else if origin =? 1 then (t_pos t + offset)%Z
    else if origin =? 2 then (t_len t + offset)%Z else 0%Z in
  if (destination <? 0)%Z then Err IndexError else
  let stay := match t_cur t with Some v => vol_has destination v | None => false end in
  let cur := if stay then t_cur t else find (vol_has destination) (t_vols t) in
  Ok (mkStream (t_vols t) cur (t_len t) destination, destination).

(** rarstream.py:134-136 tell *)
Definition tell (t : stream) : Z := t_pos t.

(** rarstream.py:212-256 read *)
Fixpoint read_from (fuel : nat) (f : fs) (t : stream) (size : Z) (size_set : bool) (dbuffer : bytes) : result (stream * bytes) :=
  match fuel with
  | O => Err OutOfFuel
  | S fuel =>
    match t_cur t with
    | None => Err AttributeError
    | Some v =>
      match fs_get f (w_path v) with
      | None => Err FileNotFound
      | Some d =>
        let start := (Z.of_N (w_off v) + (t_pos t - w_start v))%Z in
        let n := (w_end v - t_pos t + 1)%Z in
        let n := if size_set then Z.min size n else n in
        let size := if size_set then (size - n)%Z else size in
        let dbuffer := dbuffer ++ sub (Z.to_N start) (Z.to_N n) d in
        do r <- seek t n 1;
        let t := fst r in
        if ((n <=? 0) || ((size <=? 0) && size_set) || (t_len t <=? t_pos t))%Z%bool then Ok (t, dbuffer)
        else read_from fuel f t size size_set dbuffer
      end
    end
  end.
Definition read (f : fs) (t : stream) (size : Z) : result (stream * bytes) :=
  match t_cur t with
  | None => Ok (t, [])
  | Some _ => read_from (S (List.length (t_vols t))) f t size (0 <=? size)%Z []
  end.

(** osohash.py:60-66 _length and 68-102 _osorg_hash on such a stream *)
Definition stream_hash (f : fs) (t : stream) : result (text * N) :=
  let original := tell t in
  do r <- seek t 0 2;
  let filesize := tell (fst r) in
  do r <- seek (fst r) original 0;
  if (filesize <? 65536)%Z then Err ValueError else
  do b <- read f (fst r) 65536;
  do r <- seek (fst b) (-65536) 2;
  do e <- read f (fst r) 65536;
  do h <- hash_loop (N.to_nat 8192) 0 (snd b) (snd e) (Z.to_N filesize);
  Ok (hex16 h, Z.to_N filesize).
(** osohash.py:52-58 osohash_from *)
Definition osohash_from (f : fs) (rar_archive : text) (name : option text) (middle : bool) : result (text * N) :=
  do t <- rar_stream f rar_archive name middle false; stream_hash f t.
