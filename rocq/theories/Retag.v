(** Retag: fixing the tags of music files with the .srs files of an SRR (bin/retag.py). *)
From Verif Require Import Base Path Rar Srr Info.

(** A path of the input: a file or a directory with its names in the order of os.listdir.  The input
    is not changed by the run: input and output are different folders. *)
Inductive node := NFile | NDir (names : list text).

Section World.
Variable world : text -> option node.
Definition exists_in (p : text) : bool := match world p with Some _ => true | None => false end.
Definition file_in (p : text) : bool := match world p with Some NFile => true | _ => false end.
Definition dir_in (p : text) : bool := match world p with Some (NDir _) => true | _ => false end.
(** os.listdir *)
Definition listdir (p : text) : result (list text) :=
  match world p with Some (NDir l) => Ok l | Some NFile => Err OSError | None => Err FileNotFound end.

(** retag.py:170 listing[cilisting.index(cip)] *)
Fixpoint first_cased (p : text) (l : list text) : option text :=
  match l with
  | [] => None
  | n :: l => if teqb (lower n) (lower p) then Some n else first_cased p l
  end.
(** retag.py:162-178, the loop of join_fix_case.  str.lower is that of ASCII letters. *)
Fixpoint fix_parts (cur : text) (parts : list text) : result text :=
  match parts with
  | [] => Ok cur
  | p :: parts =>
    if exists_in (pjoin cur p) then fix_parts (pjoin cur p) parts
    else
      do l <- listdir cur;
      match first_cased p l with
      | Some n => fix_parts (pjoin cur n) parts
      | None => Ok []
      end
  end.
(** retag.py:154-178 join_fix_case *)
Definition join_fix_case (base : text) (parts : list text) : result text :=
  let joined := pjoin_all base parts in
  if exists_in joined then Ok joined else fix_parts base parts.

(** str.lower and str.upper, for the listing of the SRR file *)
Variables (lowf upf : text -> text).
(** retag.py:145-152 get_srs_info: the name of the sample, or [None] for NoTaggingAvailable.  Reading
    the .srs file is left open. *)
Variable music : bytes -> result (option text).
(** retag.py:141 srsmain([srs, musicf, "-o", out_location]): what it does to the output is left open *)
Variable srsmain : text -> text -> text -> fs -> fs * option exn.

(** one call of srsmain: srs, music file, output location *)
Definition call : Type := (text * text * text)%type.

(** retag.py:125 os.path.relpath(srs, output_dir) for a path that extract_files has made by joining
    the normalised output directory and a path below it *)
Definition rel_out (outdir srs : text) : text := dropN (lenN (pjoin (normpath outdir) [])) srs.

(** retag.py:124-132: the file to work on *)
Definition find_track (indir sub name : text) : result text :=
  do m <- join_fix_case indir [name];
  if file_in m then Ok m
  else
    do m <- join_fix_case indir (split SLASH sub ++ [name]);
    if file_in m then Ok m else Err ValueError.

(** retag.py:106-143 fix_tagging; always_yes is only handed on *)
Definition fix_tagging (srs outdir indir : text) (f : fs) : fs * list call * result bool :=
  match fs_get f srs with
  | None => (f, [], Err FileNotFound)
  | Some d =>
    match music d with
    | Err e => (f, [], Err e)
    | Ok None => (fs_del f srs, [], Ok false)
    | Ok (Some name) =>
      let sub := dirname (rel_out outdir srs) in
      match find_track indir sub name with
      | Err e => (f, [], Err e)
      | Ok m =>
        let out := pjoin outdir sub in
        let '(f, e) := srsmain srs m out f in
        (f, [(srs, m, out)], match e with None => Ok true | Some e => Err e end)
      end
    end
  end.

Record run := mkRun { r_fs : fs; r_calls : list call; r_good : N; r_bad : N; r_skip : N }.

(** retag.py:76-98, one .srs file; [Some e]: the exception that ends the run.  Files in the output are
    never replaced (the option -n, or the question answered with no). *)
Definition fix_track (srr : bytes) (indir outdir name : text) (s : run) : run * option exn :=
  let '(f, e, l) := extract_files srr true outdir name (r_fs s) in
  let s1 := mkRun f (r_calls s) (r_good s) (r_bad s) (r_skip s) in
  match e with
  | Some e => (s1, Some e)
  | None =>
    match l with
    | [] => (s1, Some IndexError)
    | (_, false) :: _ => (s1, None)
    | (out, true) :: _ =>
      let '(f, cs, r) := fix_tagging out outdir indir f in
      let good := r_good s + match r with Ok true => 1 | _ => 0 end in
      let bad := r_bad s + match r with Err _ => 1 | _ => 0 end in
      let skip := r_skip s + match r with Ok false => 1 | _ => 0 end in
      (* finally: os.remove(out) *)
      if isfile f out then (mkRun (fs_del f out) (r_calls s ++ cs) good bad skip, None)
      else (mkRun f (r_calls s ++ cs) good bad skip, Some FileNotFound)
    end
  end.
Fixpoint fix_loop (srr : bytes) (indir outdir : text) (names : list text) (s : run) : run * option exn :=
  match names with
  | [] => (s, None)
  | n :: names =>
    match fix_track srr indir outdir n s with
    | (s, None) => fix_loop srr indir outdir names s
    | (s, Some e) => (s, Some e)
    end
  end.

(** sfile.endswith(ext) *)
Definition has_end (e n : text) : bool := starts_with N.eqb (rev e) (rev n).
Definition is_srs (n : text) : bool := has_end (str ".srs") n.

(** retag.py:67-73, the other stored files *)
Fixpoint extract_others (srr : bytes) (outdir : text) (names : list text) (f : fs) : fs * option exn :=
  match names with
  | [] => (f, None)
  | n :: names =>
    if is_srs n then extract_others srr outdir names f
    else
      let '(f, e, _) := extract_files srr true outdir n f in
      match e with Some e => (f, Some e) | None => extract_others srr outdir names f end
  end.

(** retag.py:48-104 fix_tracks.  [made]: the output directory is there or can be made. *)
Definition fix_tracks (srr_file : text) (srr : bytes) (indir outdir : text) (made : bool) (f : fs)
  : run * option exn :=
  let s0 := mkRun f [] 0 0 0 in
  if negb (has_end (str ".srr") srr_file) then (s0, Some AttributeError)
  else if negb (dir_in indir) then (s0, Some AttributeError)
  else if negb made then (s0, Some AttributeError)
  else
    match info lowf upf srr with
    | Err e => (s0, Some e)
    | Ok i =>
      let names := map fst (i_stored i) in
      let '(f, e) := extract_others srr outdir names f in
      match e with
      | Some e => (mkRun f [] 0 0 0, Some e)
      | None => fix_loop srr indir outdir (filter is_srs names) (mkRun f [] 0 0 0)
      end
    end.

(** retag.py:232-240: the exit status.  fix_tracks returns nothing, which is not true. *)
Definition status (r : run * option exn) : result N :=
  match snd r with
  | None => Ok 1
  | Some AttributeError => Ok 2
  | Some e => Err e
  end.
End World.
