(** UsenetSrr: an SRR file of posted files (rescene/main.py create_srr_fh, usenet/srr_usenet.py create_srr). *)
From Verif Require Import VolName.
From Verif Require Import Base Path Rar Srr Sfv Stream Collect.

(** srr_usenet.py NNTPFile: its name, its data ([None]: it cannot be read, after all the retries), file_size() and
    stat_last_segment().  Reading gives the same each time. *)
Record ufile := mkU { u_name : text; u_data : option bytes; u_size : N; u_last : bool }.
(** the dict of files by their keys, in the order they were added *)
Definition udict : Type := list (text * ufile).
Fixpoint uget (k : text) (d : udict) : option ufile :=
  match d with [] => None | (n, u) :: d => if teqb n k then Some u else uget k d end.
(** what create_srr_fh is started from: posted SFV files and the names of RAR files *)
Inductive input := ISfv (u : ufile) | IRar (n : text).

(** main.py:883-907 _handle_sfv for a NNTPFile *)
Definition handle_sfv_fh (u : ufile) : result (list text) :=
  match u_data u with
  | None => Err OSError
  | Some d =>
    do x <- parse_sfv_data d;
    let '(entries, _, _) := x in
    match entries with
    | [] => Err EmptySfv
    | _ => Ok (map e_name (filter (fun e => is_rar (e_name e)) (filter_sfv_duplicates entries)))
    end
  end.
(** main.py:642-684 _rarreader_usenet for a NNTPFile: when the retries do not help the error is raised again *)
Definition reader_fh (u : ufile) : result (list block) :=
  match u_data u with None => Err OSError | Some d => read_all d end.
(** main.py:909-960 _handle_rar for a NNTPFile with filelist=allfiles *)
Definition listed (d : udict) (p : text) : bool := match uget (basename p) d with Some _ => true | None => false end.
Definition handle_rar_fh (d : udict) (u : ufile) : result (list text) :=
  do bs <- reader_fh u;
  do old <- old_style false bs;
  match first_rars [u_name u] with
  | [r] => if teqb r (u_name u) then walk (length d) (listed d) old (u_name u) else Err ValueError
  | _ => Err ValueError
  end.
(** main.py:731-743 COLLECT ARCHIVES *)
Fixpoint collect_fh (d : udict) (infiles : list input) : result (list text) :=
  match infiles with
  | [] => Ok []
  | infile :: infiles =>
    do l <- match infile with
            | ISfv u => handle_sfv_fh u
            | IRar n => match uget n d with Some u => handle_rar_fh d u | None => Err KeyError end
            end;
    do r <- collect_fh d infiles;
    Ok (l ++ r)
  end.
(** main.py:755-766 the search for a file with other capitals; lower() of ASCII *)
Fixpoint any_case (r : text) (d : udict) : option ufile :=
  match d with
  | [] => None
  | (k, v) :: d => if teqb k (lower r) || teqb (lower k) r then Some v else any_case r d
  end.
(** main.py:750-770: the dict afterwards and whether all were found *)
Fixpoint resolve (rarfiles : list text) (d : udict) : udict * bool :=
  match rarfiles with
  | [] => (d, true)
  | r :: rarfiles =>
    match uget r d with
    | Some _ => resolve rarfiles d
    | None => match any_case r d with Some v => resolve rarfiles (d ++ [(r, v)]) | None => (d, false) end
    end
  end.
(** main.py:1601-1613 _store_fh: a file that cannot be read is skipped *)
Definition store_fh (u : ufile) : bytes :=
  match u_data u with
  | None => []
  | Some d => match stored_header_bytes (u_name u) (u_size u) with Ok h => h ++ d | Err _ => [] end
  end.
(** main.py:793-804 test_end_segments *)
Fixpoint all_ends (d : udict) (rarfiles : list text) : result unit :=
  match rarfiles with
  | [] => Ok tt
  | r :: rarfiles =>
    match uget r d with
    | None => Err KeyError
    | Some u => if u_last u then all_ends d rarfiles else Err RuntimeError
    end
  end.
(** main.py:816-855 the loop over the blocks; compressed files only give a message.  A RarMax block is not a packed file. *)
Fixpoint copy_blocks (ends : result unit) (tested : bool) (bs : list block) : result (bytes * bool) :=
  match bs with
  | [] => Ok ([], tested)
  | b :: bs =>
    do raw <- check_block true b;
    do _ <- (if (b_type b =? T_RarMax) && negb tested then ends else Ok tt);
    do x <- copy_blocks ends (tested || (b_type b =? T_RarMax)) bs;
    Ok (raw ++ fst x, snd x)
  end.
(** main.py:806-855 STORE ARCHIVE BLOCKS *)
Fixpoint copy_vols (d : udict) (ends : result unit) (tested : bool) (rarfiles : list text) : result bytes :=
  match rarfiles with
  | [] => Ok []
  | r :: rarfiles =>
    match uget r d with
    | None => Err KeyError
    | Some u =>
      do h <- rarfile_bytes (u_name u);
      do bs <- reader_fh u;
      do x <- copy_blocks ends tested bs;
      do v <- copy_vols d ends (snd x) rarfiles;
      Ok (h ++ fst x ++ v)
    end
  end.
Definition sfvs_of (infiles : list input) : list ufile := flat_map (fun i => match i with ISfv u => [u] | IRar _ => [] end) infiles.
(** main.py:686-881 create_srr_fh for files of an NZB file: the SRR file or the error, for which nothing is left, and
    what has become of allfiles and store_files.  [stat] has no effect. *)
Definition create_srr_fh (app : text) (infiles : list input) (allfiles : udict) (store_files : list ufile) : result bytes * udict * list ufile :=
  match infiles with
  | [] => (Err ValueError, allfiles, store_files)
  | _ =>
    match srr_header_bytes app with
    | Err e => (Err e, allfiles, store_files)
    | Ok h =>
      match collect_fh allfiles infiles with
      | Err e => (Err e, allfiles, store_files)
      | Ok [] => (Err ValueError, allfiles, store_files)
      | Ok rarfiles =>
        let '(d, found) := match allfiles with [] => (allfiles, true) | _ => resolve rarfiles allfiles end in
        if found then
          let stores := store_files ++ sfvs_of infiles in
          (do v <- copy_vols d (all_ends d rarfiles) (match allfiles with [] => true | _ => false end) rarfiles;
           Ok (h ++ concat (map store_fh stores) ++ v), d, stores)
        else (Err FileNotFound, d, store_files)
      end
    end
  end.
(** ValueError and its subclasses *)
Definition is_value_error (e : exn) : bool := match e with ValueError | EmptySfv | UnicodeError => true | _ => false end.
(** srr_usenet.py:1255-1285: the SRR file, and whether it was made without SFV; [None]: nothing is made *)
Definition usenet_srr (app : text) (sfvs : list ufile) (nntp_files : udict) (to_store : list ufile) : result (option (bool * bytes)) :=
  let '(r, d, st) := create_srr_fh app (map ISfv sfvs) nntp_files to_store in
  match r with
  | Ok b => Ok (Some (false, b))
  | Err e =>
    if is_value_error e then
      let begin := flat_map (fun b => match uget b d with Some u => [IRar (u_name u)] | None => [] end) (first_rars (map fst d)) in
      match fst (fst (create_srr_fh app begin d st)) with
      | Ok b => Ok (Some (true, b))
      | Err e => if is_value_error e then Ok None else match e with RuntimeError => Ok None | _ => Err e end
      end
    else match e with RuntimeError => Ok None | _ => Err e end
  end.
