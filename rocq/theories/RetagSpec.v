(** RetagSpec: finding a path whatever the case of its letters, and what fixing tags must do. *)
From Verif Require Import Base Path RarSpec PathSpec SrrSpec FsSpec Srr Retag.

(** the parts below a folder *)
Fixpoint below_path (base : text) (parts : list text) : text :=
  match parts with [] => base | p :: parts => below_path (in_folder base p) parts end.
(** the same letters but for their case *)
Definition alike_part (a b : text) : Prop := lower a = lower b.
(** [r] is the path of [parts] below [base], each part possibly in other case *)
Definition cased (base : text) (parts : list text) (r : text) : Prop :=
  exists parts', Forall2 alike_part parts parts' /\ Forall plain parts' /\ r = below_path base parts'.

(** the end of a folder's path *)
Definition open_end (d : text) : Prop := d <> [] /\ last_is 47 d = false.
(** the names in a directory are those that exist there, no two of them differ in case only, and a
    slash at the end of a directory's path changes nothing *)
Record tidy (world : text -> option node) : Prop := {
  td_none : world [] = None;
  td_in : forall d n, open_end d -> plain n -> world (in_folder d n) <> None ->
    exists l, world d = Some (NDir l) /\ In n l;
  td_out : forall d l n, open_end d -> world d = Some (NDir l) -> In n l ->
    plain n /\ world (in_folder d n) <> None;
  td_case : forall d l a b, open_end d -> world d = Some (NDir l) -> In a l -> In b l -> alike_part a b -> a = b;
  td_slash : forall d l, open_end d -> world d = Some (NDir l) -> world (d ++ [47]) = Some (NDir l) }.

(** names that mean one stored file each: no name twice, paths with slashes, and none that is the last
    part of another *)
Definition clean (l : list sitem) : Prop :=
  NoDup (stored_names l) /\ Forall (fun n => srr_path n n) (stored_names l) /\
  forall n n', In n (stored_names l) -> In n' (stored_names l) -> base_of n' n -> n' = n.

Definition ends (e n : text) : Prop := exists a, n = a ++ e.
(** the place of a stored file *)
Definition place (outdir n : text) : text := in_folder (normpath outdir) n.
(** the path of a stored file: its folders and its own name *)
Definition folders (n : text) (cs : list text) : Prop := exists c, below (cs ++ [c]) n.

(** a file of the input that is the track called [s] of the .srs file stored as [n]: in the input
    folder, or else in the folder that the .srs file has in the release *)
Definition here (world : text -> option node) (indir s m : text) : Prop := world m = Some NFile /\ cased indir [s] m.
Definition there (world : text -> option node) (indir n s m : text) : Prop :=
  exists cs, folders n cs /\ world m = Some NFile /\ cased indir (cs ++ [s]) m.
Definition track (world : text -> option node) (indir n s m : text) : Prop :=
  here world indir s m \/ ((forall m', ~ here world indir s m') /\ there world indir n s m).

(** the calls made for one .srs file *)
Definition handled (world : text -> option node) (music : bytes -> result (option text)) (indir outdir : text)
  (nd : text * bytes) (cs : list call) : Prop :=
  (cs = [] /\ (forall s m, music (snd nd) = Ok (Some s) -> ~ track world indir (fst nd) s m)) \/
  exists s m cs', cs = [(place outdir (fst nd), m, pjoin outdir (join 47 cs'))] /\
    folders (fst nd) cs' /\ music (snd nd) = Ok (Some s) /\ track world indir (fst nd) s m.

(** rebuilding a track leaves the stored files alone *)
Definition minds (srsmain : text -> text -> text -> fs -> fs * option exn) (outdir : text) (l : list sitem) : Prop :=
  forall a b c f n, In n (stored_names l) -> fs_get (fst (srsmain a b c f)) (place outdir n) = fs_get f (place outdir n).

(** the stored files for tracks, in order: those whose last four letters are .srs *)
Definition srs_name (n : text) : bool := if text_dec (skipn (length n - 4) n) (str ".srs") then true else false.
Definition srs_files (l : list sitem) : list (text * bytes) := filter (fun nd => srs_name (fst nd)) (stored_files l).
(** those that are not in the output yet: a file that is there is not replaced, and not used *)
Definition unmade (outdir : text) (f : fs) (nd : text * bytes) : bool := match fs_get f (place outdir (fst nd)) with None => true | Some _ => false end.
Definition new_srs (outdir : text) (f : fs) (l : list sitem) : list (text * bytes) := filter (unmade outdir f) (srs_files l).
