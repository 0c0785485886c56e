(** Search: the commands by which the RAR executable of a compressed file is searched (rescene/main.py). *)
From Verif Require Import VolName.
From Verif Require Import Base Path Flags Rarexe.

(** "%d" of a number *)
Fixpoint show_loop (fuel : nat) (n : N) (acc : text) : text :=
  match fuel with
  | O => acc
  | S fuel => if n <? 10 then (48 + n) :: acc else show_loop fuel (n / 10) ((48 + n mod 10) :: acc)
  end.
Definition show (n : N) : text := show_loop (S (N.size_nat n)) n [].
(** r in s *)
Definition contains (a b : text) : bool := match find_sub N.eqb a b with Some _ => true | None => false end.

(** main.py:1845-1883 RarArguments; threads and split are kept as numbers, None for the empty text; store_all_files is empty *)
Record rargs := mkArgs { a_level : text; a_dict : text; a_solid : text; a_threads : option Z; a_old : text; a_rar4 : text;
  a_split : option N; a_out : text; a_before : list text; a_store : list text; a_after : list text }.
Definition SOLID : N := 0x10.
Definition init_args (method flags : N) (out : text) (store : list text) : result rargs :=
  do level <- compression_parameter method;
  Ok (mkArgs level (dict_parameter flags) (if N.land flags SOLID =? 0 then str "-s-" else str "-s") None (str "-vn") [] None out [] store []).
(** main.py:1887-1929: self.threads = "-mt%d" % count *)
Definition set_threads (t : option Z) (a : rargs) : rargs :=
  mkArgs (a_level a) (a_dict a) (a_solid a) t (a_old a) (a_rar4 a) (a_split a) (a_out a) (a_before a) (a_store a) (a_after a).
(** main.py:1965-1969 set_split *)
Definition set_split (n : N) (a : rargs) : rargs :=
  mkArgs (a_level a) (a_dict a) (a_solid a) (a_threads a) (a_old a) (a_rar4 a) (if n =? 0 then None else Some n) (a_out a) (a_before a) (a_store a) (a_after a).
(** main.py:1980-1988 reset_extra_files, set_extra_files_before, set_extra_files_after *)
Definition set_extra (before after : list text) (a : rargs) : rargs :=
  mkArgs (a_level a) (a_dict a) (a_solid a) (a_threads a) (a_old a) (a_rar4 a) (a_split a) (a_out a) before (a_store a) after.
(** main.py:1990-1995 set_rar2_flags, set_rar4_flags with the searches in the path of the executable *)
Definition set_flags (path : text) (a : rargs) : rargs :=
  mkArgs (a_level a) (a_dict a) (a_solid a) (a_threads a) (if contains (str "_rar2") path then [] else str "-vn")
    (if contains (str "_rar5") path || contains (str "_rar6") path then str "-ma4" else []) (a_split a) (a_out a) (a_before a) (a_store a) (a_after a).
(** main.py:1931-1955 arglist *)
Definition arglist (a : rargs) : list text :=
  filter (fun x => negb (teqb x []))
    [str "a"; a_level a; a_dict a; a_solid a; str "-ds"; match a_threads a with None => [] | Some c => str "-mt" ++ show (Z.to_N c) end;
     a_old a; a_rar4 a; str "-o+"; str "-ep"; str "-idcd"; match a_split a with None => [] | Some n => str "-v" ++ show n ++ str "b" end; a_out a]
  ++ a_before a ++ a_store a ++ a_after a.

Section Search.
(** the folder of the executables, whether one has the option for threads, and whether the data made by a command have the CRC
    (main.py:2343-2412 try_rar_executable) *)
Variables (folder : text) (supports : exe -> bool) (works : list text -> bool) (s : mt).
Definition exe_path (e : exe) : text := pjoin folder (x_file e).
Definition try_exe (e : exe) (a : rargs) : rargs * bool :=
  let a := set_flags (exe_path e) a in (a, works (exe_path e :: arglist a)).
(** main.py:2427-2434: the while loop; None when [fuel] is too low *)
Fixpoint try_threads (fuel : nat) (e : exe) (a : rargs) : option (rargs * bool) :=
  match fuel with
  | O => None
  | S fuel =>
    match increase s e (a_threads a) with
    | None => Some (a, false)
    | Some c =>
      let '(a, found) := try_exe e (set_threads (Some c) a) in
      if found then Some (a, true) else try_threads fuel e a
    end
  end.
Definition try_all (e : exe) (a : rargs) : result (rargs * bool) :=
  if supports e then match try_threads 34 e a with Some r => Ok r | None => Err OutOfFuel end else Ok (try_exe e a).
(** main.py:2419-2463 the loop over the executables.  [rarexe]: the variable, None when it is not set; [archived]: archived_files with
    the last source file of each; [prev]: the name of the file of the block before. *)
Fixpoint search_loop (rarexe : option exe) (archived : list (text * text)) (prev : option text) (exes : list exe) (a : rargs) : result (option (exe * rargs)) :=
  match exes with
  | [] => Ok None
  | rar :: exes =>
    match rarexe with
    | None => Err UnboundLocal
    | Some _ =>
      do r <- try_all rar a;
      let '(a, found) := r in
      if found then Ok (Some (rar, a))
      else
        let a := set_threads None a in
        let next a := search_loop rarexe archived prev exes (set_threads None (set_extra [] [] a)) in
        match archived, prev with
        | [], _ => next a
        | _, None => next a
        | _, Some p =>
          match find (fun x => teqb (fst x) p) archived with
          | None => Err KeyError
          | Some (_, src) =>
            do r <- try_all rar (set_extra [src] (a_after a) a);
            let '(a, found) := r in
            if found then Ok (Some (rar, a)) else next a
          end
        end
    end
  end.
(** main.py:2249-2466 search_matching_rar_executable.  [repository]: rar_executables, [exes]: get_rar_executables of the date; [old]: the
    block has no CRC; [piece]: the file with a part of the data, of which [split] is what is set for the size of volumes (0: not set);
    [more]: the second source file when it is used.  Making the piece is left out; EmptyRepository is a RuntimeError here. *)
Definition search (repository exes : list exe) (old : bool) (method flags : N) (out src piece : text) (split : N) (more : list text)
    (archived : list (text * text)) (prev : option text) : result (option (exe * rargs)) :=
  do a <- init_args method flags out [if old then src else piece];
  do rarexe <- (if old then Ok None else match rev repository with e :: _ => Ok (Some e) | [] => Err RuntimeError end);
  search_loop rarexe archived prev exes (set_split split (set_extra [] more a)).
End Search.
