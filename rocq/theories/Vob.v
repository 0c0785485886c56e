(** Vob: the SRR file of a sample that is a RAR volume with the name of a .vob file (rescene/main.py create_srr_single_volume,
    bin/pyrescene.py generate_srr).  Folders and failing file operations are left out (see Disk.v for those). *)
From Verif Require Import Base Path Rar Srr Disk Media.

(** main.py:588-630 create_srr_single_volume, with can_overwrite of main.py:149-156; what is printed is left out.  The result, and the
    files then: after an error only a missing [infile] removes what has been written *)
Definition create_single (app srr_name infile tmp : text) (f : fs) : result bool * fs :=
  if isfile f srr_name then (Ok false, f)
  else
    match srr_header_bytes app with
    | Err e => (Err e, fs_set f tmp [])
    | Ok h =>
      let f1 := fs_set f tmp h in
      match fs_get f1 infile with
      | None => (Err FileNotFound, fs_del f1 tmp)
      | Some data =>
        match rarfile_bytes (basename infile) with
        | Err e => (Err e, f1)
        | Ok b =>
          let f2 := fs_append f1 tmp b in
          match read_all data with
          | Err e => (Err e, f2)
          | Ok bs => (Ok true, fs_append f2 tmp (concat (map b_raw bs)))
          end
        end
      end
    end.
(** utility.py:451-466 create_temp_file_name; [rnd]: what mktemp adds to the name *)
Definition create_temp_file_name (rnd output : text) (f : fs) : result text :=
  let t := output ++ str "-" ++ rnd ++ str ".tmp" in
  if isfile f t then Err AssertionError else Ok t.
(** pyrescene.py:1073-1101 for one sample: the files on disk and copied_files then.  [srs_result]: the SRS file that has been made, or
    nothing; [info]: sample_name and the signature bytes of track 1 in it, if it is for a stream *)
Definition vob_srr (app rnd sample srs_result : text) (info : option (text * bytes)) (f : fs) (copied_files : list text) : result (fs * list text) :=
  match srs_result, ends_with sample (str ".vob"), info with
  | _ :: _, true, Some (sample_name, sig) =>
    if starts_with Byte.eqb (bstr "Rar!") sig then
      let first := base srs_result ++ str ".srr" in
      let second := pjoin (dirname srs_result) (sample_name ++ str ".srr") in
      let vobsrr := if isfile f first then second else first in
      if isfile f vobsrr then Ok (f, copied_files)
      else
        do tmp <- create_temp_file_name rnd vobsrr f;
        match create_single app vobsrr sample tmp f with
        | (Ok _, f1) => let '(f2, _, r) := replace_result tmp vobsrr f1 [] in
            Ok (f2, match r with Done => copied_files ++ [vobsrr] | _ => copied_files end)
        | (Err _, f1) => Ok (f1, copied_files)
        end
    else Ok (f, copied_files)
  | _, _, _ => Ok (f, copied_files)
  end.
