(** SampleNzb: NZB files of just the samples (usenet/nzb_sample_extract.py).  Names have no line breaks and no digits but 0 to 9;
    lower case is that of ASCII. *)
From Verif Require Import Base Path.

(** nzb_sample_extract.py:163-184 the options; [o_max]: what int() gives for the largest size, [o_out] is empty if not given *)
Record options := mkOptions { o_avi : bool; o_mkv : bool; o_mp4 : bool; o_wmv : bool; o_vob : bool; o_m2ts : bool; o_max : result Z; o_out : text }.
(** nzb_sample_extract.py:69-86 the extensions *)
Definition exts_of (o : options) : list text :=
  let l := (if o_avi o then [str ".avi"] else []) ++ (if o_mkv o then [str ".mkv"] else []) ++ (if o_mp4 o then [str ".mp4"] else [])
    ++ (if o_wmv o then [str ".wmv"] else []) ++ (if o_vob o then [str ".vob"] else []) ++ (if o_m2ts o then [str ".m2ts"] else []) in
  match l with [] => [str ".avi"; str ".mkv"] | _ => l end.
(** nzb_sample_extract.py:66 ((\.vol\d+\+\d+)?.par2)?$ : the dot before par2 is any character *)
Definition any_par2 (t : text) : bool := match t with _ :: r => teqb r (str "par2") | [] => false end.
Definition is_dec (c : N) : bool := (48 <=? c) && (c <=? 57).
Fixpoint past_digits (t : text) : text := match t with c :: r => if is_dec c then past_digits r else t | [] => [] end.
Definition vol_par2 (t : text) : bool :=
  starts_with N.eqb (str ".vol") t &&
  match dropN 4 t with
  | c :: r =>
    is_dec c &&
    match past_digits r with
    | 43 :: s => (6 <=? lenN s) && forallb is_dec (takeN (lenN s - 5) s) && any_par2 (dropN (lenN s - 5) s)
    | _ => false
    end
  | [] => false
  end.
Definition tail_ok (t : text) : bool := (lenN t =? 0) || any_par2 t || vol_par2 t.
(** nzb_sample_extract.py:64-89 is_sample: re.match of .*(exts)tail *)
Fixpoint matches (exts : list text) (t : text) : bool :=
  existsb (fun e => starts_with N.eqb e t && tail_ok (dropN (lenN e) t)) exts
  || match t with _ :: r => matches exts r | [] => false end.
Definition is_sample (o : options) (name : text) : bool := matches (exts_of o) (lower name).

(** a file of the NZB file: its name (parse_name of its subject) and the sizes of its segments *)
Record nfile := mkFile { f_name : text; f_sizes : list Z }.
(** nzb_sample_extract.py:95-104 the files that are taken *)
Fixpoint take_samples (o : options) (l : list nfile) : result (list nfile) :=
  match l with
  | [] => Ok []
  | f :: l =>
    if is_sample o (f_name f) then
      do max <- o_max o;
      if (0 <? max)%Z && (max <? fold_left Z.add (f_sizes f) 0)%Z then take_samples o l
      else do r <- take_samples o l; Ok (f :: r)
    else take_samples o l
  end.
(** what a file holds: an NZB file that can be read, nothing at all, anything else.  An empty file cannot be read *)
Inductive content := Files (l : list nfile) | Empty | Other.
Definition disk : Type := text -> option content.
Definition put (p : text) (c : content) (d : disk) : disk := fun q => if teqb p q then Some c else d q.
Definition read_nzb (d : disk) (p : text) : result (list nfile) := match d p with Some (Files l) => Ok l | Some _ => Err ValueError | None => Err FileNotFound end.
(** nzb_sample_extract.py:91-113 extract_sample, nzb_utils.py:170-171 get_xml gives bytes: in Python 3 the file is opened but they cannot be written.
    Folders can be made.  Exceptions are caught (nzb_sample_extract.py:122-125) *)
Definition extract_sample (py3 : bool) (o : options) (nzb output_dir : text) (d : disk) : disk :=
  match (do l <- read_nzb d nzb; take_samples o l) with
  | Err _ => d
  | Ok [] => d
  | Ok l => put (pjoin output_dir (basename nzb)) (if py3 then Empty else Files l) d
  end.
(** nzb_sample_extract.py:116-125 check_file *)
Definition check_file (py3 : bool) (o : options) (d : disk) (pfile : text) : disk :=
  if teqb (lower (dropN (lenN pfile - 4) pfile)) (str ".nzb") then
    extract_sample py3 o pfile (match o_out o with [] => pjoin (dirname pfile) (str "samples") | _ => o_out o end) d
  else d.
(** nzb_sample_extract.py:127-134 main; what is in a folder is listed when the program starts *)
Inductive arg := Folder (path : text) (names : list text) | File (path : text) | Nothing.
Definition paths_of (a : arg) : list text := match a with Folder p names => map (pjoin p) names | File p => [p] | Nothing => [] end.
Definition main (py3 : bool) (o : options) (args : list arg) (d : disk) : disk := fold_left (check_file py3 o) (flat_map paths_of args) d.
