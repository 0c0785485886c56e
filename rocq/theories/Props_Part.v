(** Props_Part: reconstructing one volume (C27).  [all_of P] is [P] without a volume filter. *)
From Verif Require Import Base Path PathSpec Rar RarSpec ReadSpec SrrSpec FsSpec SetSpec PartSpec Samples Srr RebuildThms PartFacts PartThms.

(** C27 is false for all sets: the volume a.r01 starts with a new file, that is read from the offset
    in the file of the volume before it. *)
Theorem C27_stale_refuted : exists P l vs f outs n v out s s' d,
  srr_ok l /\ holds_volumes l vs /\ Forall (fun nv => store_volume (snd nv)) vs /\
  Forall2 (fun nv o => target (p_paths P) (normpath (p_out P)) (fst nv) o) vs outs /\
  supplied (fun p => fs_get f (in_folder (p_in P) p)) None (concat (map (fun nv => pieces (snd nv)) vs)) /\
  In ((n, v), out) (combine vs outs) /\ p_part P = n /\ (forall nv, In nv vs -> (exists q, fst nv = q ++ p_part P) -> nv = (n, v)) /\
  reconstruct P (ser_srr l) f = (s, Continue) /\ reconstruct (all_of P) (ser_srr l) f = (s', Continue) /\
  fs_get (s_fs s') out = Some (ser_volume v) /\ fs_get (s_fs s) out = Some d /\ d <> ser_volume v.
Proof. exact stale_offset. Qed.
Print Assumptions C27_stale_refuted.
(** A volume with a directory in it cannot be made alone. *)
Theorem C27_directory_refuted : exists P l n v f s s' e,
  srr_ok l /\ holds_volumes l [(n, v)] /\ store_volume v /\ p_part P = n /\
  reconstruct (all_of P) (ser_srr l) f = (s', Continue) /\ fs_get (s_fs s') (str "/out/a.rar") = Some (ser_volume v) /\
  reconstruct P (ser_srr l) f = (s, Raise e) /\ fs_get (s_fs s) (str "/out/a.rar") <> Some (ser_volume v).
Proof. exact dir_raises. Qed.
Print Assumptions C27_directory_refuted.

(** C27 for the other volumes: all parts in the volume are at the same offset, that of the last part
    before the volume and of its size.  E.g. the volume only continues the file of the volumes before
    it.  Missing from C27: volumes with parts at other offsets, directories. *)
Theorem C27_same_partial : forall P f l a n v b oa out ob,
  srr_ok l -> holds_volumes l (a ++ (n, v) :: b) -> Forall (fun nv => store_volume (snd nv)) (a ++ (n, v) :: b) ->
  Forall2 (fun nv o => target (p_paths P) (normpath (p_out P)) (fst nv) o) a oa ->
  target (p_paths P) (normpath (p_out P)) n out ->
  Forall2 (fun nv o => target (p_paths P) (normpath (p_out P)) (fst nv) o) b ob ->
  NoDup (oa ++ out :: ob) -> Forall (fun o => fs_get f o = None) (oa ++ out :: ob) ->
  (p_extract P = true -> Forall (fun m => exists o, target (p_paths P) (normpath (p_out P)) m o /\ ~ In o (oa ++ out :: ob)) (stored_names l)) ->
  supplied (fun p => fs_get f (in_folder (p_in P) p)) None (concat (map (fun nv => pieces (snd nv)) (a ++ (n, v) :: b))) ->
  p_part P <> [] -> (~ exists q, p_part P = q ++ str "*") -> (exists q, n = q ++ p_part P) ->
  Forall (fun nv => ~ exists q, fst nv = q ++ p_part P) (a ++ b) ->
  let pa := concat (map (fun nv => pieces (snd nv)) a) in
  Forall (fun o => o = run_size (last_run pa)) (offsets (last_run pa) (pieces v)) ->
  Forall (fun hd => is_dir (fst hd) = false /\ exists c, content_of (fun p => fs_get f (in_folder (p_in P) p)) (fst hd) c) (pieces v) ->
  Forall (fun hd => In (h_text (fst hd)) (map (fun x => h_text (fst x)) (pieces v)) -> is_dir (fst hd) = false) pa ->
  exists s s', reconstruct P (ser_srr l) f = (s, Continue) /\ reconstruct (all_of P) (ser_srr l) f = (s', Continue) /\
    fs_get (s_fs s) out = fs_get (s_fs s') out /\ fs_get (s_fs s) out = Some (ser_volume v) /\
    Forall (fun o => fs_get (s_fs s) o = None) (oa ++ ob).
Proof. exact same_thm. Qed.
Print Assumptions C27_same_partial.
(** Only the files of the selected volume have to be there, and only its own file is made. *)
Theorem C27_one_partial : forall P f l a b n out v,
  srr_ok l -> holds_volumes l (a ++ (n, v) :: b) -> p_part P <> [] -> (~ exists q, p_part P = q ++ str "*") ->
  (exists q, n = q ++ p_part P) ->
  Forall (fun nv => ~ exists q, fst nv = q ++ p_part P) (a ++ b) ->
  Forall (fun nv => Forall item_ok (v_items (snd nv))) (a ++ b) -> store_volume v ->
  target (p_paths P) (normpath (p_out P)) n out -> fs_get f out = None ->
  (p_extract P = true -> Forall (fun m => exists o, target (p_paths P) (normpath (p_out P)) m o /\ o <> out) (stored_names l)) ->
  Forall (found_at (fun p => fs_get f (in_folder (p_in P) p)) (run_size (last_run (concat (map (fun nv => pieces (snd nv)) a))))) (pieces v) ->
  exists s, reconstruct P (ser_srr l) f = (s, Continue) /\
    fs_get (s_fs s) out = Some (ser_volume v) /\
    (forall q, q <> out ->
       (p_extract P = true -> Forall (fun m => ~ target (p_paths P) (normpath (p_out P)) m q) (stored_names l)) ->
       fs_get (s_fs s) q = fs_get f q).
Proof. exact part_thm. Qed.
Print Assumptions C27_one_partial.
(** a file in a.rar and a.r00, another one in a.r01; "r00" can be made alone *)
Example C27_example :
  (srr_ok psrr /\ holds_volumes psrr ([(str "a.rar", pv1)] ++ (str "a.r00", pv2) :: [(str "a.r01", pv3)])) /\
  Forall (fun nv => store_volume (snd nv)) pset /\
  Forall2 (fun nv o => target true (normpath (str "/out")) (fst nv) o) pset [str "/out/a.rar"; str "/out/a.r00"; str "/out/a.r01"] /\
  supplied (fun p => fs_get pdisk (in_folder (p_in (pparm "r00")) p)) None (concat (map (fun nv => pieces (snd nv)) pset)) /\
  (Forall (fun o => o = run_size (last_run (pieces pv1))) (offsets (last_run (pieces pv1)) (pieces pv2)) /\
   Forall (fun hd => is_dir (fst hd) = false /\ exists c, content_of (fun p => fs_get pdisk (in_folder (p_in (pparm "r00")) p)) (fst hd) c) (pieces pv2)) /\
  (exists s, reconstruct (pparm "r00") (ser_srr psrr) pdisk = (s, Continue) /\ s_fs s <> pdisk /\
     fs_get (s_fs s) (str "/out/a.r00") = Some (ser_volume pv2) /\ fs_get (s_fs s) (str "/out/a.rar") = None).
Proof.
  split; [exact pset_holds|]. split; [exact pset_store|]. split; [exact pset_targets|]. split; [exact (pset_supplied "r00")|]. split; [exact pset_offsets|].
  eexists. split; [vm_compute; reflexivity|]. split; [vm_compute; discriminate|]. split; vm_compute; reflexivity.
Qed.
