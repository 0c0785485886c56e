(** Props_Retag: fixing the tags of music files with an SRR (C71). *)
From Verif Require Import Base Path PathSpec Rar RarSpec SrrSpec Srr FsSpec FsFacts Info Retag RetagSpec RetagFacts RetagEx.

(** ** C71 *)
(** A path is found, whatever the case of its letters, exactly if it is there. *)
Theorem C71_find_partial : forall world, tidy world -> forall indir l parts m,
  open_end indir -> world indir = Some (NDir l) -> Forall plain parts -> m <> [] ->
  (join_fix_case world indir parts = Ok m <-> world m <> None /\ cased indir parts m).
Proof. exact find_spec. Qed.
Print Assumptions C71_find_partial.
Example C71_find_example : tidy ex_world /\ open_end (str "in") /\
  join_fix_case ex_world (str "in") [str "CD1"; str "B.mp3"] = Ok (str "in/cd1/b.mp3") /\
  join_fix_case ex_world (str "in") [str "CD2"; str "B.mp3"] = Ok [].
Proof. exact ex_find. Qed.
(** With two folders that differ in case only, a file that is there is not found. *)
Theorem C71_find_refuted : exists world indir parts m, world m = Some NFile /\ cased indir parts m /\
  join_fix_case world indir parts = Ok [].
Proof. exists (look two_disk), (str "in"), [str "CD1"; str "B.mp3"], (str "in/cd1/b.mp3"). exact two_case. Qed.
Print Assumptions C71_find_refuted.

(** If all .srs files that are not in the output yet are of music, each one is used once with the track that belongs
    to it, is counted, and is gone afterwards; the other stored files are extracted, and files that were there before are not replaced. *)
Theorem C71_run_partial : forall l outdir, srr_ok l -> clean l ->
  forall world, tidy world -> forall indir names, open_end indir -> world indir = Some (NDir names) ->
  forall music srsmain, minds srsmain outdir l ->
  forall lowf upf i srr_file f, info lowf upf (ser_srr l) = Ok i -> ends (str ".srr") srr_file ->
  (forall n d, In (n, d) (new_srs outdir f l) -> music d <> Ok None) ->
  (forall n d t, In (n, d) (new_srs outdir f l) -> music d = Ok (Some t) -> plain t) ->
  exists s css, fix_tracks world lowf upf music srsmain srr_file (ser_srr l) indir outdir true f = (s, None) /\
    r_calls s = concat css /\ Forall2 (handled world music indir outdir) (new_srs outdir f l) css /\
    r_good s + r_bad s = lenN (new_srs outdir f l) /\ r_skip s = 0 /\
    ((forall a b c g, snd (srsmain a b c g) = None) -> r_good s = lenN (r_calls s)) /\
    (forall n d, In (n, d) (stored_files l) -> fs_get (r_fs s) (place outdir n) =
       match fs_get f (place outdir n) with Some x => Some x | None => if srs_name n then None else Some d end).
Proof. exact retag_run. Qed.
Print Assumptions C71_run_partial.
Example C71_run_example : srr_ok ex_srr /\ clean ex_srr /\ minds ex_main (str "out") ex_srr /\ tidy ex_world /\ open_end (str "in") /\
  (exists i, info lower (fun t => t) (ser_srr ex_srr) = Ok i) /\
  (forall n d, In (n, d) (srs_files ex_srr) -> ex_music d <> Ok None) /\
  (forall n d t, In (n, d) (srs_files ex_srr) -> ex_music d = Ok (Some t) -> plain t) /\
  let '(s, e) := ex_run ex_srr in
  e = None /\ r_calls s = [(str "out/CD1/b.srs", str "in/cd1/b.mp3", str "out/CD1"); (str "out/a.srs", str "in/A.MP3", str "out/")] /\ r_good s = 2.
Proof. exact ex_good. Qed.
Example C71_run_present : let f := [(str "out/CD1/b.srs", bstr "old")] in map fst (new_srs (str "out") f ex_srr) = [str "a.srs"] /\
  let '(s, e) := fix_tracks ex_world lower (fun t => t) ex_music ex_main (str "x.srr") (ser_srr ex_srr) (str "in") (str "out") true f in
  e = None /\ r_calls s = [(str "out/a.srs", str "in/A.MP3", str "out/")] /\ fs_get (r_fs s) (str "out/CD1/b.srs") = Some (bstr "old").
Proof. vm_compute. repeat split; reflexivity. Qed.

(** A .srs file that is not of music should be skipped.  It is removed twice, and the error ends the run: the
    tracks after it are not fixed. *)
Theorem C71_skip_refuted : exists l world music srsmain f s n d t m,
  srr_ok l /\ clean l /\ tidy world /\ minds srsmain (str "out") l /\
  fix_tracks world lower (fun t => t) music srsmain (str "x.srr") (ser_srr l) (str "in") (str "out") true f = (s, Some FileNotFound) /\
  r_skip s = 1 /\ In (n, d) (srs_files l) /\ music d = Ok (Some t) /\ track world (str "in") n t m /\ r_calls s = [].
Proof.
  exists ex_video, ex_world, ex_music, ex_main, [], (mkRun [] [] 0 0 1), (str "a.srs"), (bstr "A"), (str "a.mp3"), (str "in/A.MP3").
  split; [exact ex_video_ok|]. split; [exact ex_video_clean|]. split; [exact ex_tidy|]. split; [exact ex_video_minds|].
  split; [vm_compute; reflexivity|]. split; [reflexivity|]. split; [right; left; reflexivity|]. split; [vm_compute; reflexivity|].
  split; [apply ex_a_there|reflexivity].
Qed.
Print Assumptions C71_skip_refuted.
(** A name at the top asks for all files of that name.  The .srs file in a folder is used twice; the one at the top
    is not used, and stays. *)
Theorem C71_same_refuted : exists l world music srsmain f s n d t m c,
  srr_ok l /\ tidy world /\ minds srsmain (str "out") l /\
  fix_tracks world lower (fun t => t) music srsmain (str "x.srr") (ser_srr l) (str "in") (str "out") true f = (s, None) /\
  In (n, d) (srs_files l) /\ music d = Ok (Some t) /\ track world (str "in") n t m /\
  r_calls s = [c; c] /\ fst (fst c) <> place (str "out") n /\ fs_get (r_fs s) (place (str "out") n) = Some d.
Proof.
  exists ex_twice, ex_world, ex_music, ex_main, [], (fst (ex_run ex_twice)), (str "a.srs"), (bstr "A"), (str "a.mp3"), (str "in/A.MP3"),
    (str "out/CD1/a.srs", str "in/cd1/b.mp3", str "out/CD1").
  split; [exact ex_twice_ok|]. split; [exact ex_tidy|]. split; [exact ex_twice_minds|].
  split; [vm_compute; reflexivity|]. split; [right; left; reflexivity|]. split; [vm_compute; reflexivity|].
  split; [apply ex_a_there|]. split; [vm_compute; reflexivity|]. split; [discriminate|vm_compute; reflexivity].
Qed.
Print Assumptions C71_same_refuted.
(** The exit status does not tell success: 1 also when all tracks are fixed. *)
Theorem C71_status_refuted : exists l s, srr_ok l /\ clean l /\ ex_run l = (s, None) /\ r_good s = lenN (srs_files l) /\ r_bad s = 0 /\
  status (s, None) = Ok 1.
Proof.
  exists ex_srr, (fst (ex_run ex_srr)). split; [exact ex_srr_ok|]. split; [exact ex_clean|]. split; [vm_compute; reflexivity|].
  split; [vm_compute; reflexivity|]. split; [vm_compute; reflexivity|reflexivity].
Qed.
Print Assumptions C71_status_refuted.
