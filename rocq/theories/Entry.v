(** Entry: what the command srr does with its options, and its exit status (rescene/srr.py main and manage_srr). *)
From Verif Require Import Base Path Sfv Dirs Srr.

(** how a function of the package ends; [NotFound] is FileNotFound or RarNotFound *)
Inductive ended (A : Type) := Ret (a : A) | NotFound | NoRepository | Interrupted | OtherError.
Arguments Ret {A} a.
Arguments NotFound {A}.
Arguments NoRepository {A}.
Arguments Interrupted {A}.
Arguments OtherError {A}.
(** srr.py:585-592: the types of input files *)
Definition known_type (n : text) : bool :=
  let e := lower (last4 n) in negb (negb (teqb e (str ".srr")) && negb (teqb e (str ".sfv")) && negb (teqb e (str ".rar"))).
Inductive start := Stop (status : N) | Manage | Create.
(** srr.py:562-566 and 583-605.  [temp_bad]: a temporary folder is given that is not there; [both]: -x and --extract-regex.
    The exception of exit is no Exception and is not caught *)
Definition start_of (exists_ : text -> bool) (temp_bad both : bool) (infiles : list text) : start :=
  if temp_bad then Stop 1 else if both then Stop 1
  else if existsb (fun f => negb (exists_ f) || negb (known_type f)) infiles then Stop 1
  else match infiles with
       | [] => Stop 1
       | f :: _ => if ends_with f (str ".srr") then Manage else Create
       end.
Record switches := mkSw { s_info : bool; s_details : bool; s_verify : bool; s_extract : bool; s_regex : bool; s_store : bool }.
Inductive action := Info | Details | Verify | Extract | ExtractSome | Store | Rebuild.
(** srr.py:213-297 the order of the options *)
Definition choose (s : switches) : action :=
  if s_info s then Info else if s_details s then Details else if s_verify s then Verify
  else if s_extract s then Extract else if s_regex s then ExtractSome else if s_store s then Store else Rebuild.
(** what the functions give: display_info, print_details, verify_extracted_files, extract_files (paths and success), is the regular expression
    one, extract_files with it, add_stored_files, are the hints ones, reconstruct *)
Record given := mkGiven { g_info : ended unit; g_details : ended unit; g_verify : ended N; g_extract : ended (list (text * bool));
  g_re : bool; g_some : ended (list (text * bool)); g_store : ended bool; g_hints : bool; g_rebuild : ended unit }.
Definition after {A} (e : ended A) (f : A -> N) : ended N :=
  match e with Ret a => Ret (f a) | NotFound => NotFound | NoRepository => NoRepository | Interrupted => Interrupted | OtherError => OtherError end.
(** srr.py:241-247 and 278-284 *)
Definition extracted (l : list (text * bool)) : N := fold_left (fun (st : N) (x : text * bool) => if snd x then st else 1) l 0.
(** srr.py:207-333 manage_srr; None is an exit status of 0 *)
Definition manage (s : switches) (g : given) : ended N :=
  match choose s with
  | Info => after (g_info g) (fun _ => 0)
  | Details => after (g_details g) (fun _ => 0)
  | Verify => after (g_verify g) (fun n => n)
  | Extract => after (g_extract g) extracted
  | ExtractSome => if g_re g then after (g_some g) extracted else Ret 1
  | Store => after (g_store g) (fun _ => 0)
  | Rebuild =>
    if g_hints g then
      match g_rebuild g with NotFound | NoRepository => Ret 1 | e => after e (fun _ => 0) end
    else Ret 1
  end.
(** srr.py:582-614 the exit status; [created] is that of create_srr *)
Definition exit_status (st : start) (managed created : ended N) : N :=
  match st with
  | Stop n => n
  | _ => match (match st with Manage => managed | _ => created end) with Ret n => n | Interrupted => 130 | _ => 99 end
  end.
(** srr.py:242 and 279 the name that is shown of an extracted file; main.py:203-211 _opath with paths *)
Definition shown_name (out_folder name : text) : text := dropN (lenN out_folder + 1) (pjoin (normpath out_folder) name).
(** srr.py:348-360 the name of the SRR file that is made; [output] is empty without -o *)
Definition srr_name (working_dir output infolder : text) (parent : bool) (infile : text) : text :=
  let out_folder := if negb (lenN output =? 0) && negb (teqb (lower (last4 output)) (str ".srr")) then output else working_dir in
  if negb (lenN output =? 0) && teqb (lower (last4 output)) (str ".srr") then output
  else if parent then pjoin out_folder (basename infolder ++ str ".srr")
  else pjoin out_folder (takeN (lenN (basename infile) - 4) (basename infile) ++ str ".srr").
