(** PartThms: a set of three volumes for Props_Part. *)
From Verif Require Import Base BaseFacts Path PathSpec PathFacts Crc Rar RarSpec ReadSpec SrrSpec RecovSpec
  RecovFacts FsSpec SetSpec PartSpec Samples Srr FsFacts RarFacts ReadFacts ReadAllFacts SrrFacts EditFacts RebuildFacts CreateFacts RebuildThms PartFacts.

Definition pvol (h : fhead) (d : bytes) : volume := mkVolume [(AHEAD, []); (HFile h (lenN d), d); (ENDHEAD, [])] [].
Definition pv1 := pvol (FHEAD 2 "a.txt" 5 0x11) (bstr "abc").
Definition pv2 := pvol (FHEAD 1 "a.txt" 5 0x22) (bstr "de").
Definition pv3 := pvol (FHEAD 0 "b.txt" 2 0x33) (bstr "xy").
Definition pset : list (text * volume) := [(str "a.rar", pv1); (str "a.r00", pv2); (str "a.r01", pv3)].
Definition psrr : list sitem := app_item (str "x") :: concat (map (fun nv => vol_items (fst nv) (snd nv)) pset).
Definition pdisk : fs := [(str "/in/a.txt", bstr "abcde"); (str "/in/b.txt", bstr "xy")].
Definition pparm (part : string) : rparams := mkParams (str "/in") (str "/out") true true false true (str part).

Lemma pset_holds : srr_ok psrr /\ holds_volumes psrr pset.
Proof.
  split.
  - split; [|split; [|split]].
    + unfold psrr, app_item. eauto 8.
    + ok.
    + vm_compute. repeat split; intros; discriminate.
    + ok.
  - apply hv_skip; [reflexivity|]. apply (hv_vol (str "a.rar") pv1). apply (hv_vol (str "a.r00") pv2). apply (hv_vol (str "a.r01") pv3 []). constructor.
Qed.
Lemma pset_store : Forall (fun nv => store_volume (snd nv)) pset.
Proof.
  constructor; [|constructor; [|constructor; [|constructor]]]; cbn [snd]; (split; [|split; [repeat (constructor; [cbn; lia || exact I || reflexivity|]); constructor|repeat split]]);
    (split; [ok|split; [|ok]]);
    match goal with |- context [v_items ?v] => exists (firstn 2 (v_items v)), (ENDHEAD, []) end; (split; [reflexivity|]); (split; [ok|now left]).
Qed.
Lemma pset_supplied part : supplied (fun p => fs_get pdisk (in_folder (p_in (pparm part)) p)) None (concat (map (fun nv => pieces (snd nv)) pset)).
Proof.
  change (concat (map (fun nv => pieces (snd nv)) pset)) with
      [(FHEAD 2 "a.txt" 5 0x11, bstr "abc"); (FHEAD 1 "a.txt" 5 0x22, bstr "de"); (FHEAD 0 "b.txt" 2 0x33, bstr "xy")].
  apply (sup_new _ _ _ _ (bstr "de")); [intros; discriminate| |].
  - exists (str "a.txt"). split; [apply rar_os_file_name_spec; reflexivity|]. split; [reflexivity|now left].
  - apply (sup_cont _ (str "a.txt") [] (FHEAD 1 "a.txt" 5 0x22) (bstr "de")); [reflexivity|].
    apply (sup_new _ _ _ _ []); [|  |constructor].
    + intros n r E. apply some_inj in E. injection E as <- <-. discriminate.
    + exists (str "b.txt"). split; [apply rar_os_file_name_spec; reflexivity|]. split; [reflexivity|now left].
Qed.
Lemma pset_targets : Forall2 (fun nv o => target true (normpath (str "/out")) (fst nv) o) pset [str "/out/a.rar"; str "/out/a.r00"; str "/out/a.r01"].
Proof. constructor; [|constructor; [|constructor; [|constructor]]]; apply (opath_spec _ true (str "/out")); reflexivity. Qed.
Lemma pset_offsets :
  let p1 := pieces pv1 in
  Forall (fun o => o = run_size (last_run p1)) (offsets (last_run p1) (pieces pv2)) /\
  Forall (fun hd => is_dir (fst hd) = false /\ exists c, content_of (fun p => fs_get pdisk (in_folder (p_in (pparm "r00")) p)) (fst hd) c) (pieces pv2).
Proof.
  split; [repeat constructor|]. constructor; [|constructor]. split; [reflexivity|]. exists (bstr "abcde"). exists (str "a.txt").
  split; [apply rar_os_file_name_spec; reflexivity|]. split; [reflexivity|now left].
Qed.

(** the last volume starts with a new file, but the offset in the file before it is used *)
Lemma stale_offset : exists P l vs f outs n v out s s' d,
  srr_ok l /\ holds_volumes l vs /\ Forall (fun nv => store_volume (snd nv)) vs /\
  Forall2 (fun nv o => target (p_paths P) (normpath (p_out P)) (fst nv) o) vs outs /\
  supplied (fun p => fs_get f (in_folder (p_in P) p)) None (concat (map (fun nv => pieces (snd nv)) vs)) /\
  In ((n, v), out) (combine vs outs) /\ p_part P = n /\ (forall nv, In nv vs -> (exists q, fst nv = q ++ p_part P) -> nv = (n, v)) /\
  reconstruct P (ser_srr l) f = (s, Continue) /\ reconstruct (all_of P) (ser_srr l) f = (s', Continue) /\
  fs_get (s_fs s') out = Some (ser_volume v) /\ fs_get (s_fs s) out = Some d /\ d <> ser_volume v.
Proof.
  exists (pparm "a.r01"), psrr, pset, pdisk, [str "/out/a.rar"; str "/out/a.r00"; str "/out/a.r01"], (str "a.r01"), pv3, (str "/out/a.r01").
  exists (fst (reconstruct (pparm "a.r01") (ser_srr psrr) pdisk)), (fst (reconstruct (all_of (pparm "a.r01")) (ser_srr psrr) pdisk)).
  exists (ser_head MARKER ++ ser_head AHEAD ++ ser_head (HFile (FHEAD 0 "b.txt" 2 0x33) 2) ++ [x00; x00] ++ ser_head ENDHEAD).
  split; [apply pset_holds|]. split; [apply pset_holds|]. split; [exact pset_store|]. split; [exact pset_targets|]. split; [exact (pset_supplied "")|].
  split; [right; right; left; reflexivity|]. split; [reflexivity|].
  split. { intros nv [<-|[<-|[<-|[]]]] [q H]; [| |reflexivity]; exfalso; cbn in H;
    destruct q as [|? [|? [|? [|? [|? [|? ?]]]]]]; vm_compute in H; discriminate H. }
  split; [vm_compute; reflexivity|]. split; [vm_compute; reflexivity|]. split; [vm_compute; reflexivity|]. split; [vm_compute; reflexivity|].
  vm_compute. discriminate.
Qed.
(** a directory: FakeFile cannot be positioned at its end *)
Definition pdir : fhead := FHEAD 0xE0 "d" 0 0.
Definition psrr2 : list sitem := app_item (str "x") :: vol_items (str "a.rar") (pvol pdir []).
Lemma dir_raises : exists P l n v f s s' e,
  srr_ok l /\ holds_volumes l [(n, v)] /\ store_volume v /\ p_part P = n /\
  reconstruct (all_of P) (ser_srr l) f = (s', Continue) /\ fs_get (s_fs s') (str "/out/a.rar") = Some (ser_volume v) /\
  reconstruct P (ser_srr l) f = (s, Raise e) /\ fs_get (s_fs s) (str "/out/a.rar") <> Some (ser_volume v).
Proof.
  exists (pparm "a.rar"), psrr2, (str "a.rar"), (pvol pdir []), [], (fst (reconstruct (pparm "a.rar") (ser_srr psrr2) [])), (fst (reconstruct (all_of (pparm "a.rar")) (ser_srr psrr2) [])), IndexError.
  split.
  { split; [|split; [|split]].
    + unfold psrr2, app_item. eauto 8.
    + ok.
    + vm_compute. repeat split; intros; discriminate.
    + ok. }
  split; [apply hv_skip; [reflexivity|]; apply (hv_vol (str "a.rar") (pvol pdir []) []); constructor|].
  split.
  { split; [|split; [repeat (constructor; [cbn; lia || exact I || reflexivity|]); constructor|repeat split]]. split; [ok|split; [|ok]].
    exists (firstn 2 (v_items (pvol pdir []))), (ENDHEAD, []). split; [reflexivity|]. split; [ok|now left]. }
  split; [reflexivity|]. split; [vm_compute; reflexivity|]. split; [vm_compute; reflexivity|]. split; [vm_compute; reflexivity|]. vm_compute. discriminate.
Qed.
