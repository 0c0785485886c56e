(** Srr: creating, editing and reconstructing from SRR files (rescene/main.py). *)
From Verif Require Import Base Path Crc Rar.

(** ** File system: finite map from path to content.  Directories are implicit and creating
    them never fails. *)
Definition fs := list (text * bytes).
Fixpoint fs_get (f : fs) (p : text) : option bytes :=
  match f with
  | [] => None
  | (q, d) :: f' => if teqb q p then Some d else fs_get f' p
  end.
Definition fs_set (f : fs) (p : text) (d : bytes) : fs := (p, d) :: f.
Definition fs_del (f : fs) (p : text) : fs :=
  filter (fun e => negb (teqb (fst e) p)) f.
Definition isfile (f : fs) (p : text) : bool :=
  match fs_get f p with Some _ => true | None => false end.
(** writing at the end of an open file *)
Definition fs_append (f : fs) (p : text) (d : bytes) : fs :=
  match fs_get f p with
  | Some old => fs_set f p (old ++ d)
  | None => fs_set f p d
  end.

(** main.py:149-156 can_overwrite, the default policy *)
Definition can_overwrite (f : fs) (p : text) : bool := negb (isfile f p).

(** rar.py:653-658 srr_data: bytes of the stored file behind the block *)
Definition srr_data (srr : bytes) (b : block) : bytes :=
  match b_kind b with
  | KStored size _ => sub (b_pos b + b_hsize b) size srr
  | _ => []
  end.

Definition is_stored (b : block) : bool := b_type b =? T_SrrStored.
(** file_size and file_name of a stored file block; a block of this type of exactly 7 bytes is a
    plain RarBlock without these attributes *)
Definition stored_of (b : block) : result (option (N * text)) :=
  if is_stored b then
    match b_kind b with KStored size name => Ok (Some (size, name)) | _ => Err AttributeError end
  else Ok None.

(** ** Creating *)

(** main.py:1569-1599 _store: the bytes written for one file.  [name] is the name chosen there
    (see [stored_name]). *)
Definition store_bytes (nd : text * bytes) : result bytes :=
  do h <- stored_header_bytes (fst nd) (lenN (snd nd));
  Ok (h ++ snd nd).

(** main.py:539-568, one RAR volume of create_srr: blocks checked and copied *)
Definition check_block (compressed : bool) (b : block) : result bytes :=
  match b_kind b with
  | KFile f =>
    if negb (f_method f =? COMPR_STORING) then
      if compressed then Ok (b_raw b) else Err ValueError
    else do _ <- rar_os_file_name (f_name f); Ok (b_raw b)
  | _ =>
    if b_type b =? T_RarFile then Err AttributeError  (* a 7 byte block *)
    else do _ <- is_recovery b; Ok (b_raw b)
  end.
Definition volume_bytes (compressed : bool) (vol : text * bytes) : result bytes :=
  do h <- rarfile_bytes (fst vol);
  do bs <- read_all (snd vol);
  do raws <- mapR (check_block compressed) bs;
  Ok (h ++ concat raws).

(** main.py:452-586 create_srr.  [stores]: names and contents of the files found by _search, in
    order; [vols]: stored names and contents of the RAR volumes, in the order of [rarfiles];
    [osos]: size, hash, name of each successful osohash_from call (empty if oso_hash=False).
    Finding the files on disk is not part of this function. *)
Definition create_srr (app : text) (stores vols : list (text * bytes)) (compressed : bool)
  (osos : list (N * text * text)) : result bytes :=
  do h <- srr_header_bytes app;
  do s <- mapR store_bytes stores;
  do v <- mapR (volume_bytes compressed) vols;
  do o <- mapR (fun x => let '(sz, hs, nm) := x in oso_bytes sz hs nm) osos;
  Ok (h ++ concat s ++ concat v ++ concat o).

(** ** Editing: the content written to the temporary file *)

(** rr.file_type() != SRR, main.py:268 / 352 / 389 *)
Definition srr_blocks (srr : bytes) : result (list block) :=
  do m <- reader_mode srr;
  if mode_eqb m SRR then read_all srr else Err NotSrrFile.

(** block_bytes() followed by the stored data when it is a stored file,
    main.py:305-311 / 363-368 *)
Definition copy_block (srr : bytes) (b : block) : bytes :=
  b_raw b ++ (if is_stored b then srr_data srr b else []).

(** main.py:273-283: a stored file whose path is in the list of files to add *)
Fixpoint dupe_check (store_files : list text) (bs : list block) : result unit :=
  match bs with
  | [] => Ok tt
  | b :: bs' =>
    do st <- stored_of b;
    match st with
    | Some (_, name) =>
      do existing <- srr_os_file_name name;
      if mem_text existing store_files then Err DupeFileName else dupe_check store_files bs'
    | None => dupe_check store_files bs'
    end
  end.

(** main.py:293-330: copy, inserting the new files before the first SrrRarFile block *)
Fixpoint add_loop (srr new : bytes) (location : bool) (bs : list block) : bytes :=
  match bs with
  | [] => if location then [] else new
  | b :: bs' =>
    if (b_type b =? T_SrrRarFile) && negb location
    then new ++ copy_block srr b ++ add_loop srr new true bs'
    else copy_block srr b ++ add_loop srr new location bs'
  end.

(** main.py:240-341 add_stored_files (usenet=False).  [store_files]: the normalized argument;
    [files]: stored name and content of each file found by _search. *)
Definition add_stored_files (srr : bytes) (store_files : list text)
  (files : list (text * bytes)) : result bytes :=
  do bs <- srr_blocks srr;
  do _ <- dupe_check store_files bs;
  do new <- mapR store_bytes files;
  Ok (add_loop srr (concat new) false bs).

(** main.py:343-376 remove_stored_files *)
Fixpoint remove_loop (srr : bytes) (names : list text) (bs : list block) : result bytes :=
  match bs with
  | [] => Ok []
  | b :: bs' =>
    do st <- stored_of b;
    do rest <- remove_loop srr names bs';
    match st with
    | Some (_, name) =>
      if mem_text name names then Ok rest else Ok (b_raw b ++ srr_data srr b ++ rest)
    | None => Ok (b_raw b ++ rest)
    end
  end.
Definition remove_stored_files (srr : bytes) (names : list text) : result bytes :=
  do bs <- srr_blocks srr;
  remove_loop srr names bs.

(** main.py:378-404 rename_stored_file and rar.py:660-680 renameto *)
Fixpoint find_stored (name : text) (bs : list block) : result (option (block * N)) :=
  match bs with
  | [] => Ok None
  | b :: bs' =>
    do st <- stored_of b;
    match st with
    | Some (size, n) => if teqb n name then Ok (Some (b, size)) else find_stored name bs'
    | None => find_stored name bs'
    end
  end.
Definition rename_stored_file (srr : bytes) (old new : text) : result bytes :=
  do bs <- srr_blocks srr;
  do r <- find_stored old bs;
  match r with
  | None => Err FileNotFound
  | Some (b, size) =>
    if negb (is_good_srr new) then Err AttributeError else
    do h <- stored_header_bytes new size;
    Ok (takeN (b_pos b) srr ++ h ++ dropN (b_pos b + b_hsize b) srr)
  end.

(** main.py:412-450 merge_srrs.  [app]: None is the default argument. *)
Definition merge_app (app : option text) (bs : list block) : option text :=
  fold_left (fun a b =>
    match b_kind b with
    | KSrrHeader n => match a with None | Some [] => Some n | _ => a end
    | _ => a
    end) bs app.
Definition is_header (b : block) : bool := b_type b =? T_SrrHeader.
Definition merge_srrs (srrs : list bytes) (app : option text) : result bytes :=
  do bss <- mapR (fun s => do bs <- read_all s; Ok (s, bs)) srrs;
  let app := fold_left (fun a sb => merge_app a (snd sb)) bss app in
  match app with
  | None => Err TypeError  (* SrrHeaderBlock(appname=None) without bytes *)
  | Some a =>
    do h <- srr_header_bytes a;
    do _ <- mapR (fun sb => mapR stored_of (snd sb)) bss;
    Ok (h ++
        concat (map (fun sb => concat (map (copy_block (fst sb)) (filter is_stored (snd sb)))) bss)
        ++ concat (map (fun sb => concat (map b_raw
                      (filter (fun b => negb (is_header b) && negb (is_stored b)) (snd sb)))) bss))
  end.

(** ** Extracting stored files *)
Inductive event :=
| ECrcVolume (path : text)
| ECrcFile (name : text)
| EUnknown (ty : N)
| ENoOverwrite (path : text)
| EAborted.

(** main.py:213-238 _extract: (file system, extracted or not) *)
Definition extract1 (srr : bytes) (b : block) (out : text) (f : fs) : fs * bool :=
  if can_overwrite f out then (fs_set f out (srr_data srr b), true) else (f, false).

(** main.py:165-201 extract_files with matcher=None: [packed] is packed_name.  The state is kept
    when an exception ends the loop. *)
Definition wants (packed : text) (out osname : text) : bool :=
  teqb packed [] ||
  (teqb packed (basename packed) && teqb (basename packed) (basename out)) ||
  teqb (normpath packed) osname.
Fixpoint extract_loop (srr : bytes) (paths : bool) (folder packed : text) (bs : list block)
  (f : fs) : fs * option exn * list (text * bool) :=
  match bs with
  | [] => (f, None, [])
  | b :: bs' =>
    match b_kind b with
    | KStored _ name =>
      match opath name paths folder, srr_os_file_name name with
      | Ok out, Ok osname =>
        if wants packed out osname then
          let '(f1, ok) := extract1 srr b out f in
          let '(f2, e, l) := extract_loop srr paths folder packed bs' f1 in
          (f2, e, (out, ok) :: l)
        else extract_loop srr paths folder packed bs' f
      | Err e, _ => (f, Some e, [])
      | _, Err e => (f, Some e, [])
      end
    | _ =>
      if is_stored b then (f, Some AttributeError, [])
      else extract_loop srr paths folder packed bs' f
    end
  end.
Definition extract_files (srr : bytes) (paths : bool) (folder packed : text) (f : fs)
  : fs * option exn * list (text * bool) :=
  match read_all srr with
  | Err e => (f, Some e, [])
  | Ok bs => extract_loop srr paths folder packed bs f
  end.

(** ** Reconstructing *)

(** The content of a source file is what it was when it was opened: the case that it is one of the
    files being written is left out. *)
(** An open source file: a real one or FakeFile (rarstream.py FakeFile) *)
Inductive source :=
| SFile (rest : bytes) (whole : bytes)
| SFake (rest : N) (size : N).

(** file.read(n) *)
Definition src_read (n : N) (s : source) : bytes * source :=
  match s with
  | SFile rest w => (takeN n rest, SFile (dropN n rest) w)
  | SFake rest sz => (repN (N.min n rest) x00, SFake (rest - n) sz)
  end.
(** file.seek(off); FakeFile raises IndexError at or past its end *)
Definition src_seek (off : N) (s : source) : result source :=
  match s with
  | SFile _ w => Ok (SFile (dropN off w) w)
  | SFake _ sz => if sz <=? off then Err IndexError else Ok (SFake (sz - off) sz)
  end.

(** main.py:1508-1543 the copy loop of _repack: 64 KiB at a time, zero padded.
    Returns the bytes written, the source, running_crc and file_crc. *)
Fixpoint repack_loop (fuel : nat) (todo : N) (src : source) (skip_crc : bool) (rcrc fcrc : N)
  : bytes * source * N * N :=
  match fuel with
  | O => ([], src, rcrc, fcrc)
  | S fuel =>
    if todo =? 0 then ([], src, rcrc, fcrc)
    else
      let n := N.min todo 65536 in
      let '(buf, src) := src_read n src in
      let rcrc := if skip_crc then rcrc else zcrc32 buf rcrc in
      let fcrc := if skip_crc then fcrc else zcrc32 buf fcrc in
      let '(w, src, r, f) := repack_loop fuel (todo - n) src skip_crc rcrc fcrc in
      (buf ++ repN (n - lenN buf) x00 ++ w, src, r, f)
  end.
(** enough for the [packed]/65536 rounds *)
Definition repack_fuel (packed : N) : nat := S (N.to_nat (packed / 65536 + 1)).

(** main.py:1545-1557 the CRC messages of _repack *)
Definition repack_events (flags : N) (f : file_info) (rcrc fcrc : N) (rarpath : text)
  (skip_crc : bool) : list event :=
  if skip_crc then []
  else
    let file_end := negb (has flags F_SPLIT_AFTER) in
    if negb file_end && negb (f_crc f =? N.land fcrc MASK32) then [ECrcVolume rarpath]
    else if file_end && negb (f_crc f =? N.land rcrc MASK32) && (f_method f =? COMPR_STORING)
         then [ECrcFile (f_name f)]
         else [].

(** int.from_bytes(sector, "big") and int.to_bytes(512, "big") *)
Definition int_from_bytes_big (l : bytes) : N := fold_left (fun a b => a * 256 + b2n b) l 0.
Fixpoint int_to_bytes_big (k : nat) (n : N) : bytes :=
  match k with O => [] | S k' => int_to_bytes_big k' (n / 256) ++ [n2b (n mod 256)] end.

Fixpoint set_nth {A} (i : nat) (x : A) (l : list A) : list A :=
  match l, i with
  | [], _ => []
  | _ :: t, O => x :: t
  | y :: t, S i' => y :: set_nth i' x t
  end.

(** main.py:1424-1446 the sector loop of _write_recovery_record.  [crc] and [rs] are the lists of
    the code; assigning past the end of [crc] is an IndexError. *)
Fixpoint rr_loop (fuel : nat) (rest : bytes) (cur slice : N) (nrs : N)
  (crc : list N) (rs : list N) : result (list N * list N) :=
  match rest with
  | [] => Ok (crc, rs)
  | _ =>
    match fuel with
    | O => Err OutOfFuel
    | S fuel =>
      let sec := takeN 512 rest in
      let sec := sec ++ repN (512 - lenN sec) x00 in
      let sc := N.land (N.lxor (crc32 sec) MASK32) 0xFFFF in
      if lenN crc <=? cur * 2 + 1 then Err IndexError else
      let crc := set_nth (N.to_nat (cur * 2)) (N.land sc 0xFF) crc in
      let crc := set_nth (N.to_nat (cur * 2 + 1)) (N.shiftr sc 8) crc in
      let rs := set_nth (N.to_nat slice)
                  (N.lxor (nth (N.to_nat slice) rs 0) (int_from_bytes_big sec)) rs in
      let slice := if (slice + 1) mod nrs =? 0 then 0 else slice + 1 in
      rr_loop fuel (dropN 512 rest) (cur + 1) slice nrs crc rs
    end
  end.

(** main.py:1392-1451 _write_recovery_record: the bytes appended to the volume *)
Definition recovery_bytes (raw : bytes) (nrs nds : N) (vol : bytes) : result bytes :=
  if lenN vol =? 0 then Err AssertionError else
  do cr <- rr_loop (S (List.length vol)) vol 0 0 nrs (repN (nds * 2) 0) (repN nrs 0);
  let '(crc, rs) := cr in
  Ok (raw ++ map n2b crc ++ concat (map (int_to_bytes_big 512) rs)).

(** Parameters of reconstruct (main.py:1184) that are modelled: no hints, no
    auto_locate_renamed, no RAR executables. *)
Record rparams := mkParams {
  p_in : text; p_out : text; p_paths : bool; p_skip_crc : bool; p_empty : bool;
  p_extract : bool; p_part : text }.

Record rstate := mkState {
  s_fs : fs;
  s_rar_name : text;
  s_rarfs : option text;      (* path of the open volume *)
  s_source : option text;     (* source_name *)
  s_src : option source;      (* srcfs *)
  s_rr : bool;                (* rebuild_recovery *)
  s_crc : N;                  (* running_crc *)
  s_skip : bool;              (* skip_volume *)
  s_skip_off : N;             (* skip_offset *)
  s_pset : bool;              (* partial_set *)
  s_events : list event }.    (* latest first *)

Inductive flow := Continue | Return | Raise (e : exn).

Definition set_fs s f := mkState f (s_rar_name s) (s_rarfs s) (s_source s) (s_src s) (s_rr s)
  (s_crc s) (s_skip s) (s_skip_off s) (s_pset s) (s_events s).
Definition set_skip s b ps := mkState (s_fs s) (s_rar_name s) (s_rarfs s) (s_source s) (s_src s)
  (s_rr s) (s_crc s) b (s_skip_off s) ps (s_events s).
Definition set_volume s name path rr := mkState (s_fs s) name path (s_source s) (s_src s) rr
  (s_crc s) (s_skip s) (s_skip_off s) (s_pset s) (s_events s).
Definition set_source s n src crc := mkState (s_fs s) (s_rar_name s) (s_rarfs s) n src (s_rr s)
  crc (s_skip s) (s_skip_off s) (s_pset s) (s_events s).
Definition set_off s off := mkState (s_fs s) (s_rar_name s) (s_rarfs s) (s_source s) (s_src s)
  (s_rr s) (s_crc s) (s_skip s) off (s_pset s) (s_events s).
Definition add_events s l := mkState (s_fs s) (s_rar_name s) (s_rarfs s) (s_source s) (s_src s)
  (s_rr s) (s_crc s) (s_skip s) (s_skip_off s) (s_pset s) (l ++ s_events s).

(** rarfs.write(d); rarfs is None before the first volume: AttributeError *)
Definition vol_write (s : rstate) (d : bytes) : rstate * flow :=
  match s_rarfs s with
  | None => (s, Raise AttributeError)
  | Some p => (set_fs s (fs_append (s_fs s) p d), Continue)
  end.

(** main.py:1453-1491 _locate_file without hints and auto_locate_renamed: the content of the file.
    abspath is the identity for the absolute folders considered. *)
Definition size_unknown (n : N) : bool := (n =? 4294967295) || (n =? 18446744073709551615).
Definition locate_file (f : fs) (in_folder : text) (fi : file_info) : result bytes :=
  do osname <- rar_os_file_name (f_name fi);
  match fs_get f (pjoin in_folder osname) with
  | None => Err FileNotFound
  | Some d =>
    if negb (lenN d =? f_unpacked fi) && negb (size_unknown (f_unpacked fi))
    then Err InvalidFileSize else Ok d
  end.

Definition ends_with (t suf : text) : bool := starts_with N.eqb (rev suf) (rev t).
Definition begins_with (t pre : text) : bool := starts_with N.eqb pre t.

(** main.py:1311-1350 opening the source file of a file block *)
Definition open_source (P : rparams) (s : rstate) (flags : N) (fi : file_info)
  : result source :=
  if N.land flags F_DIRECTORY =? F_DIRECTORY then Ok (SFake (f_unpacked fi) (f_unpacked fi))
  else
    match locate_file (s_fs s) (p_in P) fi with
    | Ok d => if f_method fi =? COMPR_STORING then Ok (SFile d d) else Err NotModelled
    | Err FileNotFound => if p_empty P then Ok (SFake (f_unpacked fi) (f_unpacked fi))
                          else Err FileNotFound
    | Err e => Err e
    end.

Definition is_partial (P : rparams) : bool := negb (teqb (p_part P) []).

(** main.py:1238-1385, one block of the loop of reconstruct *)
Definition rstep (P : rparams) (srr : bytes) (s : rstate) (b : block) : rstate * flow :=
  let ty := b_type b in
  if ty =? T_SrrHeader then (s, Continue)   (* always read as SrrHeaderBlock *)
  else if ty =? T_SrrStored then
    if p_extract P then
      match b_kind b with
      | KStored _ name =>
        match opath name (p_paths P) (p_out P) with
        | Err e => (s, Raise e)
        | Ok out => (set_fs s (fst (extract1 srr b out (s_fs s))), Continue)
        end
      | _ => (s, Raise AttributeError)  (* a 7 byte block of this type *)
      end
    else (s, Continue)
  else if ty =? T_SrrRarFile then
    match b_kind b with
    | KRarFile name =>
      let part := p_part P in
      let skip := is_partial P && negb (ends_with name part) in
      let wild := is_partial P && last_is 42 part &&
                  begins_with name (takeN (lenN part - 1) part) in
      let skip := if wild then false else skip in
      let s := set_skip s skip (if wild then true else s_pset s) in
      if negb (teqb (s_rar_name s) name) && negb skip then
        let rr := has (b_flags b) F_RR_REMOVED in
        match opath name (p_paths P) (p_out P) with
        | Err e => (set_volume s name (s_rarfs s) rr, Raise e)
        | Ok out =>
          if can_overwrite (s_fs s) out
          then (set_volume (set_fs s (fs_set (s_fs s) out [])) name (Some out) rr, Continue)
          else (add_events (set_volume s name (s_rarfs s) rr) [EAborted], Return)
        end
      else (s, Continue)
    | _ => (s, Raise AttributeError)    (* a 7 byte block of this type *)
    end
  else if (ty =? T_RarOldRec) && s_skip s then (s, Continue)
  else
    match is_recovery b with
    | Err e => (s, Raise e)
    | Ok rec =>
      match rec, s_skip s with
      | Some (rs, ds), false =>
        if (0 <? rs) && s_rr s then
          match s_rarfs s with
          | None => (s, Raise AttributeError)
          | Some p =>
            match recovery_bytes (b_raw b) rs ds
                    (match fs_get (s_fs s) p with Some d => d | None => [] end) with
            | Ok d => vol_write s d
            | Err e => (s, Raise e)
            end
          end
        else vol_write s (b_raw b)
      | _, _ =>
        if ty =? T_RarFile then
          match b_kind b with
          | KFile fi =>
            if s_skip s then
              let same := match s_source s with Some n => teqb n (f_name fi) | None => false end in
              let s := set_off s (if same then s_skip_off s + f_packed fi else f_packed fi) in
              (set_source s (Some (f_name fi)) (s_src s) 0, Continue)
            else
              match vol_write s (b_raw b) with
              | (s, Continue) =>
                let same := match s_source s with Some n => teqb n (f_name fi) | None => false end in
                let reopen := negb same || (is_partial P && negb (s_pset s)) in
                let opened :=
                  if reopen then
                    match open_source P s (b_flags b) fi with
                    | Ok src => inl (set_source s (Some (f_name fi)) (Some src) 0)
                    | Err e => inr (set_source s (Some (f_name fi)) None 0, e)
                    end
                  else inl s in
                match opened with
                | inr (s, e) => (s, Raise e)
                | inl s =>
                  match s_src s with
                  | None => (s, Raise AssertionError)
                  | Some src =>
                    match (if is_partial P && negb (s_pset s) then src_seek (s_skip_off s) src
                           else Ok src) with
                    | Err e => (s, Raise e)
                    | Ok src =>
                      let '(w, src, rcrc, fcrc) :=
                        repack_loop (repack_fuel (f_packed fi)) (f_packed fi) src
                          (p_skip_crc P) (s_crc s) 0 in
                      match vol_write s w with
                      | (s, Continue) =>
                        (add_events (set_source s (s_source s) (Some src) rcrc)
                           (repack_events (b_flags b) fi rcrc fcrc
                              (match s_rarfs s with Some p => p | None => [] end)
                              (p_skip_crc P)), Continue)
                      | r => r
                      end
                    end
                  end
                end
              | r => r
              end
          | _ => if s_skip s then (s, Raise AttributeError) else
                 match vol_write s (b_raw b) with  (* 7 byte block: no file_name *)
                 | (s, Continue) => (s, Raise AttributeError)
                 | r => r
                 end
          end
        else if ((T_RarMin <=? ty) && (ty <=? T_RarMax)) || ((ty =? 0) && (b_hsize b =? 20)) then
          if s_skip s then (s, Continue) else vol_write s (b_raw b)
        else if ty =? T_SrrOso then (s, Continue)
        else if ty =? T_SrrPadding then
          if s_skip s then (s, Continue) else vol_write s (dropN (b_hsize b) (b_raw b))
        else (add_events s [EUnknown ty], Continue)
      end
    end.

Fixpoint rloop (P : rparams) (srr : bytes) (s : rstate) (bs : list block) : rstate * flow :=
  match bs with
  | [] => (s, Continue)
  | b :: bs' =>
    match rstep P srr s b with
    | (s, Continue) => rloop P srr s bs'
    | r => r
    end
  end.

Definition s_init (f : fs) : rstate :=
  mkState f [] None None None false 0 false 0 false [].

(** main.py:1184-1390 reconstruct *)
Definition reconstruct (P : rparams) (srr : bytes) (f : fs) : rstate * flow :=
  match read_all srr with
  | Err e => (s_init f, Raise e)
  | Ok bs => rloop P srr (s_init f) bs
  end.
