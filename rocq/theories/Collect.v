(** Collect: the volumes an SRR file is made of (rescene/main.py _handle_sfv, _handle_rar and the loop of create_srr). *)
From Verif Require Import VolName.
From Verif Require Import Base Path Rar Srr Sfv Stream.

Definition F_VOLUME : N := 0x1.

(** parse_sfv_file(sfile) of a path: a file that is not there cannot be opened *)
Definition sfv_file (f : fs) (sfile : text) : result (list sfv * list text * list text) :=
  match fs_get f sfile with Some d => parse_sfv_data d | None => Err OSError end.
(** main.py:883-900 _handle_sfv for a path *)
Definition handle_sfv (f : fs) (sfile : text) : result (list text) :=
  do x <- sfv_file f sfile;
  let '(entries, _, _) := x in
  match entries with
  | [] => Err EmptySfv
  | _ => Ok (map (fun e => pjoin (dirname sfile) (e_name e)) (filter (fun e => is_rar (e_name e)) (filter_sfv_duplicates entries)))
  end.

(** main.py:642-667 _rarreader_usenet for a path, a string without init_data: the errors that are caught become
    AttributeError.  The module nntplib is there. *)
Definition reader_usenet (f : fs) (rfile : text) : result (list block) :=
  match read_archive f rfile with
  | Err (EnvironmentError | IndexError | OSError) => Err AttributeError
  | r => r
  end.
(** main.py:933-951 the loop over the blocks *)
Fixpoint old_style (is_old_style_naming : bool) (bs : list block) : result bool :=
  match bs with
  | [] => Ok is_old_style_naming
  | block :: bs =>
    if b_type block =? T_RarVolume then
      match b_kind block with
      | KVolume _ _ =>
        old_style (if has (b_flags block) F_VOLUME then negb (has (b_flags block) F_NEW_NUMBERING) else is_old_style_naming) bs
      | _ => Err AttributeError  (* a 7 byte block lacks the constant *)
      end
    else old_style is_old_style_naming bs
  end.
(** main.py:956-960 *)
Fixpoint walk (fuel : nat) (exists_ : text -> bool) (old : bool) (next_file : text) : result (list text) :=
  if exists_ next_file then
    match fuel with
    | O => Err OutOfFuel
    | S fuel =>
      do next <- next_archive next_file old;
      do l <- walk fuel exists_ old next;
      Ok (next_file :: l)
    end
  else Ok [].
Definition on_disk (f : fs) (p : text) : bool := match fs_get f p with Some _ => true | None => false end.
(** main.py:909-960 _handle_rar for a path.  Nothing else is done with the volumes before the last one is known, so the
    list is as good as the generator. *)
Definition handle_rar (f : fs) (rfile : text) : result (list text) :=
  do bs <- reader_usenet f rfile;
  do old <- old_style false bs;
  match first_rars [rfile] with
  | [r] => if teqb r rfile then walk (length f) (on_disk f) old rfile else Err ValueError
  | _ => Err ValueError
  end.
(** main.py:508-518 the loop of create_srr over the input files *)
Definition is_sfv (infile : text) : bool := VolName.ends_with (str ".sfv") (lower infile).
Fixpoint collect (f : fs) (infiles : list text) : result (list text) :=
  match infiles with
  | [] => Ok []
  | infile :: infiles =>
    do l <- (if is_sfv infile then handle_sfv f infile else handle_rar f infile);
    do r <- collect f infiles;
    Ok (l ++ r)
  end.
