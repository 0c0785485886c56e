(** Run: bin/pyrescene.py main, the releases it goes through and its exit status. *)
From Verif Require Import Base Path Sfv.

(** what generate_srr does for one release: True, False, or KeyboardInterrupt, ExecutableNotFound or another exception.
    [FileNotFound] is the class of rescene, a missing file of Python is an [OSError] *)
Inductive gen_end := Made | NotMade | Interrupted | NoFpcalc | Fails (e : exn).
(** how the loop ends *)
Inductive run_end := Finished | Aborted | Raised (e : exn).
Section Run.
(** generate_srr of a release after others; os.path.abspath; get_release_directories, whose folders are read before (it is a generator) *)
Variables (gen : list text -> text -> gen_end) (abspath : text -> text) (releases : text -> list text).
(** pyrescene.py:1709-1729 for one release: is it missing?  pyrescene.py:1730-1755 are the exceptions that are handled.  FileNotFound is handled in the inner loop only *)
Definition one_release (recursive : bool) (seen : list text) (r : text) : bool + run_end :=
  match gen seen r with
  | Made => inl false
  | NotMade => inl true
  | Interrupted | NoFpcalc | Fails AssertionError => inr Aborted
  | Fails FileNotFound => if recursive then inl true else inr (Raised FileNotFound)
  | Fails e => inr (Raised e)
  end.
(** the releases seen, those missing, and the end *)
Fixpoint go (recursive : bool) (seen missing todo : list text) : list text * list text * run_end :=
  match todo with
  | [] => (seen, missing, Finished)
  | r :: todo =>
    match one_release recursive seen r with
    | inl m => go recursive (seen ++ [r]) (if m then missing ++ [r] else missing) todo
    | inr e => (seen ++ [r], missing, e)
    end
  end.
Definition todo (recursive : bool) (indirs : list text) : list text :=
  concat (map (fun d => if recursive then releases (abspath d) else [abspath d]) indirs).
Record report := mkReport { r_status : result N; r_seen : list text; r_missing : list text; r_removed : bool (* the working directory *) }.
(** pyrescene.py:1700-1826: the exit status.  The working directory can be removed; the drive, the report file and what is printed
    besides the missing releases are left out *)
Definition main_run (recursive : bool) (indirs : list text) : report :=
  match go recursive [] [] (todo recursive indirs) with
  | (seen, missing, Raised e) => mkReport (Err e) seen [] false
  | (seen, missing, e) =>
    mkReport (Ok (match e, missing with Finished, [] => 0 | _, _ => 1 end)) seen missing true
  end.
End Run.

(** the loop of both questions: answers as typed, until y or n; raw_input fails when there are none *)
Fixpoint ask (answers : list text) : result bool :=
  match answers with
  | [] => Err RuntimeError (* EOFError *)
  | a :: answers => if teqb (lower a) (str "y") then Ok true else if teqb (lower a) (str "n") then Ok false else ask answers
  end.
(** pyrescene.py:138-147 can_create *)
Definition can_create (always_yes isfile : bool) (answers : list text) : result bool := if negb always_yes && isfile then ask answers else Ok true.
(** pyrescene.py:1605-1613: is the output directory made?  [None]: it is there *)
Definition output_dir (always_yes exists_ isfile : bool) (answers : list text) : result (option bool) :=
  if exists_ then Ok None else do c <- can_create always_yes isfile answers; Ok (Some c).
(** pyrescene.py:1616-1629 can_overwrite of main *)
Definition can_overwrite (always_yes always_no isfile : bool) (answers : list text) : result bool :=
  if negb always_yes && isfile then if always_no then Ok false else ask answers else Ok true.
