(** Properties of creating SRR files and of reconstructing volumes from them: C01. *)
From Verif Require Import Base Path PathSpec Rar RarSpec ReadSpec SrrSpec RecovSpec FsSpec SetSpec Samples Srr
  EditFacts CreateFacts RebuildThms.

(** C01: the round trip.  [vols]: names and volumes; [outs]: the places of the names below the output folder. *)
Theorem C01_round_trip : forall app stores vols osos srr P f outs,
  vols <> [] -> Forall (fun nv => store_volume (snd nv)) vols ->
  create_srr app stores (map (fun nv => (fst nv, ser_volume (snd nv))) vols) false osos = Ok srr ->
  p_part P = [] ->
  Forall2 (fun nv o => target (p_paths P) (normpath (p_out P)) (fst nv) o) vols outs -> NoDup outs ->
  Forall (fun o => fs_get f o = None) outs ->
  (p_extract P = true ->
   Forall (fun n => exists o, target (p_paths P) (normpath (p_out P)) n o /\ ~ In o outs) (map fst stores)) ->
  supplied (fun p => fs_get f (in_folder (p_in P) p)) None (concat (map (fun nv => pieces (snd nv)) vols)) ->
  exists s, reconstruct P srr f = (s, Continue) /\
    Forall2 (fun nv o => fs_get (s_fs s) o = Some (ser_volume (snd nv))) vols outs /\
    (forall q d, fs_get f q = Some d -> fs_get (s_fs s) q = Some d) /\
    (forall q, ~ In q outs ->
       (p_extract P = true -> Forall (fun n => ~ target (p_paths P) (normpath (p_out P)) n q) (map fst stores)) ->
       fs_get (s_fs s) q = fs_get f q).
Proof. exact round_trip. Qed.
Print Assumptions C01_round_trip.

(** creating succeeds for these volumes, if all names can be written and placed *)
Theorem C01_create : forall app stores vols,
  valid_text app -> lenN (utf8 app) < 65527 ->
  Forall (fun nd => storable (fst nd) /\ lenN (snd nd) < 4294967296) stores ->
  Forall (fun nv => (valid_text (fst nv) /\ fst nv <> [] /\ lenN (utf8 (fst nv)) + 9 < 65536) /\
     store_volume (snd nv) /\
     Forall (fun hd => exists p, rar_path (h_text (fst hd)) p) (pieces (snd nv))) vols ->
  exists srr, create_srr app stores (map (fun nv => (fst nv, ser_volume (snd nv))) vols) false [] = Ok srr.
Proof. exact create_exists. Qed.
Print Assumptions C01_create.

(** the same for every SRR file that holds the volumes, whatever stored files, hashes and application
    names are between them *)
Theorem C01_any_srr : forall P f l vs outs,
  srr_ok l -> holds_volumes l vs -> p_part P = [] ->
  Forall (fun nv => store_volume (snd nv)) vs ->
  Forall2 (fun nv o => target (p_paths P) (normpath (p_out P)) (fst nv) o) vs outs -> NoDup outs ->
  Forall (fun o => fs_get f o = None) outs ->
  (p_extract P = true ->
   Forall (fun n => exists o, target (p_paths P) (normpath (p_out P)) n o /\ ~ In o outs) (stored_names l)) ->
  supplied (fun p => fs_get f (in_folder (p_in P) p)) None (concat (map (fun nv => pieces (snd nv)) vs)) ->
  exists s, reconstruct P (ser_srr l) f = (s, Continue) /\
    Forall2 (fun nv o => fs_get (s_fs s) o = Some (ser_volume (snd nv))) vs outs /\
    kept fs_get f (s_fs s) /\
    (forall q, ~ In q outs ->
       (p_extract P = true -> Forall (fun n => ~ target (p_paths P) (normpath (p_out P)) n q) (stored_names l)) ->
       fs_get (s_fs s) q = fs_get f q).
Proof. exact reconstruct_volumes. Qed.
Print Assumptions C01_any_srr.

(** editing and merging keep the volumes, so that they can still be reconstructed *)
Theorem C01_edits : forall l vs, srr_ok l -> holds_volumes l vs -> vs <> [] ->
  (forall names files out, add_stored_files (ser_srr l) names files = Ok out ->
     exists l', out = ser_srr l' /\ srr_ok l' /\ holds_volumes l' vs) /\
  (forall names out, remove_stored_files (ser_srr l) names = Ok out ->
     exists l', out = ser_srr l' /\ srr_ok l' /\ holds_volumes l' vs) /\
  (forall old new out, rename_stored_file (ser_srr l) old new = Ok out ->
     exists l', out = ser_srr l' /\ srr_ok l' /\ holds_volumes l' vs).
Proof. exact edits_hold. Qed.
Print Assumptions C01_edits.
Theorem C01_merge : forall ls vss app out,
  Forall srr_ok ls -> Forall2 holds_volumes ls vss -> concat vss <> [] ->
  merge_srrs (map ser_srr ls) app = Ok out ->
  exists l', out = ser_srr l' /\ srr_ok l' /\ holds_volumes l' (concat vss).
Proof. exact merge_hold. Qed.
Print Assumptions C01_merge.

(** A block of a type outside 0x72-0x7B is kept in the SRR file but not written by the
    reconstruction, which ends as if nothing had happened. *)
Theorem C01_other_block_refuted : exists v srr P f s d,
  volume_ok v /\ create_srr [] [] [(str "x.rar", ser_volume v)] false [] = Ok srr /\
  reconstruct P srr f = (s, Continue) /\ fs_get (s_fs s) (str "/out/x.rar") = Some d /\ d <> ser_volume v.
Proof. exact other_block_lost. Qed.
Print Assumptions C01_other_block_refuted.
(** An SRR file with the whole recovery record in it, as older versions made (the flag of the volume
    block is not set): only the header of the record is written. *)
Theorem C01_old_srr_refuted : exists v P f s d,
  store_volume v /\ reconstruct P (ser_sitem (app_item []) ++ ser_sitem (SRar 0x7171 0 (str "x.rar") []) ++ ser_volume v) f = (s, Continue) /\
  fs_get (s_fs s) (str "/out/x.rar") = Some d /\ lenN d < lenN (ser_volume v).
Proof. exact old_srr_short. Qed.
Print Assumptions C01_old_srr_refuted.

Example C01_example :
  Forall (fun nv => store_volume (snd nv)) rset /\
  (exists srr, create_srr (str "app") rstores rfiles false [] = Ok srr /\
   exists s, reconstruct rparm srr rdisk = (s, Continue) /\
     fs_get (s_fs s) (str "/out/CD1/a.rar") = Some (ser_volume volr) /\
     fs_get (s_fs s) (str "/out/CD1/a.r00") = Some (ser_volume vol2)) /\
  Forall2 (fun nv o => target true (normpath (str "/out")) (fst nv) o) rset
    [str "/out/CD1/a.rar"; str "/out/CD1/a.r00"] /\
  supplied (fun p => fs_get rdisk (in_folder (p_in rparm) p)) None (concat (map (fun nv => pieces (snd nv)) rset)).
Proof. exact rset_example. Qed.
