(** C60: reconstruction with missing files *)
From Coq Require Import ZArith.
From Verif Require Import Base Path PathSpec Rar RarSpec ReadSpec SrrSpec RecovSpec FsSpec SetSpec Srr FsFacts CreateFacts RebuildThms Fake FakeSpec FakeFacts FakeEx.

(** An SRR file holds the volumes [vs], [f0] is a disk with all packed files, [f] the same disk with some of the files
    missing, and the user asks for empty files in their place.  Then volumes [ws] are written that have the blocks of [vs],
    zero bytes for the data of missing files, the data of [vs] for the others, and recovery records that are right for
    what is written.  Nothing else on the disk changes. *)
Theorem C60 : forall P f0 f l vs outs, (forall q, fs_get f q = fs_get f0 q \/ fs_get f q = None) ->
  srr_ok l -> holds_volumes l vs -> p_part P = [] -> p_empty P = true ->
  Forall (fun nv => store_volume (snd nv)) vs ->
  Forall2 (fun nv o => target (p_paths P) (normpath (p_out P)) (fst nv) o) vs outs -> NoDup outs ->
  Forall (fun o => fs_get f0 o = None) outs ->
  (p_extract P = true -> Forall (fun n => exists o, target (p_paths P) (normpath (p_out P)) n o /\ ~ In o outs /\ fs_get f o = fs_get f0 o) (stored_names l)) ->
  supplied (fun p => fs_get f0 (in_folder (p_in P) p)) None (concat (map (fun nv => pieces (snd nv)) vs)) ->
  (forall h d p c, In (h, d) (concat (map (fun nv => pieces (snd nv)) vs)) -> is_dir h = false -> rar_path (h_text h) p ->
     fs_get f (in_folder (p_in P) p) = None -> fs_get f0 (in_folder (p_in P) p) = Some c -> lenN c = h_unpacked h) ->
  exists s ws, reconstruct P (ser_srr l) f = (s, Continue) /\
    Forall2 (fun nv nw => fst nw = fst nv /\ blanked (missing (fun p => fs_get f (in_folder (p_in P) p))) (snd nv) (snd nw)) vs ws /\
    Forall (fun nw => store_volume (snd nw)) ws /\
    Forall2 (fun nw o => fs_get (s_fs s) o = Some (ser_volume (snd nw))) ws outs /\ kept fs_get f (s_fs s).
Proof. exact fake_ok. Qed.
Print Assumptions C60.
Example C60_example :
  (forall q, fs_get fdisk q = fs_get rdisk q \/ fs_get fdisk q = None) /\ srr_ok fsrr /\ holds_volumes fsrr rset /\ p_part fparm = [] /\ p_empty fparm = true /\
  Forall (fun nv => store_volume (snd nv)) rset /\
  Forall2 (fun nv o => target (p_paths fparm) (normpath (p_out fparm)) (fst nv) o) rset [str "/out/CD1/a.rar"; str "/out/CD1/a.r00"] /\
  Forall (fun o => fs_get rdisk o = None) [str "/out/CD1/a.rar"; str "/out/CD1/a.r00"] /\ stored_names fsrr = [] /\
  supplied (fun p => fs_get rdisk (in_folder (p_in fparm) p)) None (concat (map (fun nv => pieces (snd nv)) rset)) /\
  (forall h d p c, In (h, d) (concat (map (fun nv => pieces (snd nv)) rset)) -> is_dir h = false -> rar_path (h_text h) p ->
     fs_get fdisk (in_folder (p_in fparm) p) = None -> fs_get rdisk (in_folder (p_in fparm) p) = Some c -> lenN c = h_unpacked h) /\
  (exists s, reconstruct fparm (ser_srr fsrr) fdisk = (s, Continue) /\ fs_get (s_fs s) (str "/out/CD1/a.rar") = Some (ser_volume volr0)).
Proof. exact fake_ex. Qed.

(** Any sequence of seeks and reads on the object that stands for a missing file gives what it gives on a file of zero
    bytes of that size, as long as no seek goes to the end of the file. *)
Theorem C60_file : forall size ops, file_run (repN size x00) 0 ops (fake_run ops (fake_open size)).
Proof. exact fake_file_ok. Qed.
Print Assumptions C60_file.
Example C60_file_example :
  fake_run [ORead 2; OSeek (-1) SeekEnd; ORead 9; OSeek 0 SeekEnd; OSeek 1 SeekSet; ORead (-1); ORead 4]%Z (fake_open 5) =
  [RData (repN 2 x00); RPos 4; RData (repN 1 x00); RFail; RPos 1; RData (repN 4 x00); RData []].
Proof. exact fake_ops. Qed.
