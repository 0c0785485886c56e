(** Stored: bin/pyrescene.py generate_srr, the order of the files that are stored in the .srr file and the files that are left out.
    Files are paths in the working directory.  Case is that of ASCII. *)
From Verif Require Import Base Path Sfv.

(** Lists of Python: l.remove(x) and l.index(x) raise ValueError if x is not there; l.insert(i, x) *)
Fixpoint remove (x : text) (l : list text) : result (list text) :=
  match l with [] => Err ValueError | y :: l => if teqb x y then Ok l else do r <- remove x l; Ok (y :: r) end.
Fixpoint index (x : text) (l : list text) : result nat :=
  match l with [] => Err ValueError | y :: l => if teqb x y then Ok 0%nat else do i <- index x l; Ok (S i) end.
Definition insert (i : nat) (x : text) (l : list text) : list text := firstn i l ++ x :: skipn i l.
(** x[-4:].lower() and x[:-4].lower() *)
Definition last4 (x : text) : text := lower (dropN (lenN x - 4) x).
Definition first4 (x : text) : text := lower (takeN (lenN x - 4) x).

(** ** bin/pyrescene.py:1170-1185, SFV files *)
(** copied_sfvs[sfvs.index(sfv)] *)
Definition copied_sfv (sfvs copied_sfvs : list text) (s : text) : result text :=
  do i <- index s sfvs; match nth_error copied_sfvs i with Some c => Ok c | None => Err IndexError end.
(** the loop over [todo]; [acc] is copied_files, [rarsfv] the SFV files of archives *)
Fixpoint sfv_loop (sfvs main copied_sfvs todo acc rarsfv : list text) : result (list text) :=
  match todo with
  | [] => Ok (acc ++ rarsfv)
  | s :: todo =>
    do c <- copied_sfv sfvs copied_sfvs s;
    let hits := filter (teqb s) main in
    sfv_loop sfvs main copied_sfvs todo (match hits with [] => acc ++ [c] | _ => acc end) (rarsfv ++ map (fun _ => c) hits)
  end.
(** [copy] is copy_to_working_dir *)
Definition add_sfvs (copy : text -> text) (copied sfvs main : list text) : result (list text) := sfv_loop sfvs main (map copy sfvs) sfvs copied [].

(** ** bin/pyrescene.py:646-651, 1187-1189, the files of music *)
Definition key_sort_music_files (x : text) : text := if teqb (last4 x) (str ".nfo") then str "-" else x.
(** list.sort with a key keeps the order of files with one key *)
Fixpoint insert_key (x : text) (l : list text) : list text :=
  match l with
  | [] => [x]
  | y :: l' => if text_lt (key_sort_music_files y) (key_sort_music_files x) then y :: insert_key x l' else x :: l
  end.
Definition sort_music (l : list text) : list text := fold_right insert_key [] l.

(** ** bin/pyrescene.py:1191-1218, .srs files of music that are not in the SFV files *)
Section Check.
(** the name and the CRC in the .srs file with this path; None is for an exception *)
Variable load_srs : text -> option (text * N).
(** crclist[name.lower()] of the entries of all SFV files in order; the last one counts.  A CRC is a number here: parse_sfv_file lets only hexadecimal numbers through *)
Definition crc_of (entries : list (text * N)) (name : text) : option N :=
  fold_left (fun r e => if teqb (lower (fst e)) (lower name) then Some (snd e) else r) entries None.
Definition failed (entries : list (text * N)) (f : text) : bool :=
  teqb (last4 f) (str ".srs") &&
  match load_srs f with
  | Some (name, crc) => match crc_of entries name with Some c => negb (c =? crc) | None => false end
  | None => true
  end.
Fixpoint remove_all (xs l : list text) : result (list text) :=
  match xs with [] => Ok l | x :: xs => do l <- remove x l; remove_all xs l end.
Definition check_music (entries : list (text * N)) (copied : list text) : result (list text) := remove_all (filter (failed entries) copied) copied.
End Check.

(** ** bin/pyrescene.py:1220-1231, .srr and .rar files above their SFV file *)
Definition sfv_for (m : text) : text := first4 m ++ str ".sfv".
Definition to_move (l : list text) : list text :=
  filter (fun m => (teqb (last4 m) (str ".srr") || teqb (last4 m) (str ".rar")) && mem_text (sfv_for m) (map lower l)) l.
Fixpoint move_loop (ms l : list text) : result (list text) :=
  match ms with
  | [] => Ok l
  | m :: ms =>
    do l <- remove m l;
    do i <- index (sfv_for m) (map lower l);
    move_loop ms (insert i m l)
  end.
Definition move (l : list text) : result (list text) := move_loop (to_move l) l.

(** ** bin/pyrescene.py:1233-1242, the options to leave out files *)
Section Exclude.
(** options.skip_list, and skipre.match(os.path.relpath(cfile, working_dir)); nothing matches without options.skip_regex *)
Variables (skip_list : list text) (skipre : text -> bool).
Fixpoint exclude_loop (todo l : list text) : result (list text) :=
  match todo with
  | [] => Ok l
  | f :: todo =>
    do l <- (if mem_text (basename f) skip_list then remove f l else Ok l);
    do l <- (if skipre f then remove f l else Ok l);
    exclude_loop todo l
  end.
Definition exclude (l : list text) : result (list text) := exclude_loop l l.
End Exclude.
