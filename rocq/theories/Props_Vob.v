(** C91: the SRR file of a sample that is a RAR volume. *)
From Verif Require Import Base Path PathSpec Rar RarSpec ReadSpec SrrSpec RecovSpec FsSpec SetSpec Samples Srr RebuildThms Disk Media WorkDirSpec Vob VobSpec VobFacts VobEx.

(** For a .vob sample with the contents of a RAR volume (of any method) an SRR file that holds just this volume is put beside the SRS file, under a name
    that is free; no other file changes and no temporary file is left. *)
Theorem C91_made : forall an rnd sample srs name sig f have v dest,
  valid_text an -> lenN (utf8 an) < 65527 -> valid_text (basename sample) -> lenN (utf8 (basename sample)) + 9 < 65536 ->
  rared_vob sample sig -> volume_ok v -> fs_get f sample = Some (ser_volume v) -> vob_place (fs_get f) srs name dest -> fs_get f (dest ++ str "-" ++ rnd ++ str ".tmp") = None ->
  exists f' l, vob_srr an rnd sample srs (Some (name, sig)) f have = Ok (f', have ++ [dest]) /\ fs_get f' dest = Some (ser_srr l) /\
    srr_ok l /\ holds_volumes l [(basename sample, v)] /\ stored_names l = [] /\ forall q, q <> dest -> fs_get f' q = fs_get f q.
Proof. exact vob_thm. Qed.
Print Assumptions C91_made.
(** If nothing in the volume is compressed the sample is made again from this file and the files in the volume. *)
Theorem C91_rebuild : forall an rnd sample srs name sig f have v dest P g o,
  valid_text an -> lenN (utf8 an) < 65527 -> valid_text (basename sample) -> lenN (utf8 (basename sample)) + 9 < 65536 ->
  rared_vob sample sig -> store_volume v -> fs_get f sample = Some (ser_volume v) -> vob_place (fs_get f) srs name dest -> fs_get f (dest ++ str "-" ++ rnd ++ str ".tmp") = None ->
  p_part P = [] -> target (p_paths P) (normpath (p_out P)) (basename sample) o -> fs_get g o = None -> supplied (fun p => fs_get g (in_folder (p_in P) p)) None (pieces v) ->
  exists f' srr s, vob_srr an rnd sample srs (Some (name, sig)) f have = Ok (f', have ++ [dest]) /\ fs_get f' dest = Some srr /\
    reconstruct P srr g = (s, Continue) /\ fs_get (s_fs s) o = fs_get f sample.
Proof. exact vob_rebuild. Qed.
Print Assumptions C91_rebuild.
Example C91_example : (valid_text (str "app") /\ lenN (utf8 (str "app")) < 65527 /\ valid_text (basename vs) /\ lenN (utf8 (basename vs)) + 9 < 65536 /\ rared_vob vs vsig) /\
  store_volume volr /\ fs_get vdisk vs = Some (ser_volume volr) /\
  (vob_place (fs_get vdisk) vsrs (str "s.vob") (str "/w/S/s.srr") /\ vob_place (fs_get vdisk2) vsrs (str "s.vob") (str "/w/S/s.vob.srr")) /\
  match vob_srr (str "app") (str "r") vs vsrs (Some (str "s.vob", vsig)) vdisk [vsrs] with Ok (_, l) => l = [vsrs; str "/w/S/s.srr"] | Err _ => False end /\
  match vob_srr (str "app") (str "r") vs vsrs (Some (str "s.vob", vsig)) vdisk2 [vsrs] with Ok (_, l) => l = [vsrs; str "/w/S/s.vob.srr"] | Err _ => False end.
Proof. exact ex_vob. Qed.
Example C91_rebuild_example : p_part rparm = [] /\ target (p_paths rparm) (normpath (p_out rparm)) (basename vs) (str "/out/s.vob") /\ fs_get rdisk (str "/out/s.vob") = None /\
  supplied (fun p => fs_get rdisk (in_folder (p_in rparm) p)) None (pieces volr).
Proof. exact ex_supplied. Qed.
(** Whatever the sample is: files that are there stay as they are, and a file is only listed if it has been made. *)
Theorem C91_keeps : forall an rnd sample srs info f have f' have', vob_srr an rnd sample srs info f have = Ok (f', have') ->
  (forall q d, fs_get f q = Some d -> fs_get f' q = Some d) /\
  (have' = have \/ exists dest d, have' = have ++ [dest] /\ fs_get f dest = None /\ fs_get f' dest = Some d /\ forall q, q <> dest -> fs_get f' q = fs_get f q).
Proof. exact keeps_thm. Qed.
Print Assumptions C91_keeps.
Example C91_keeps_example : vob_srr (str "app") (str "r") (str "/r/S/s.mkv") vsrs (Some (str "s.mkv", vsig)) vdisk2 [vsrs] = Ok (vdisk2, [vsrs]).
Proof. reflexivity. Qed.
(** no file is left when the RAR file is broken: false *)
Theorem C91_left_refuted : exists f f' q, fs_get f q = None /\ fs_get f' q <> None /\ vob_srr (str "app") (str "r") vs vsrs (Some (str "s.vob", vsig)) f [vsrs] = Ok (f', [vsrs]).
Proof. exact ex_left. Qed.
Print Assumptions C91_left_refuted.
(** it does not matter how .vob is written: false *)
Theorem C91_capital_refuted : exists sample f, lower sample = lower vs /\ fs_get f sample = Some (ser_volume volr) /\ vob_srr (str "app") (str "r") sample vsrs (Some (basename sample, vsig)) f [vsrs] = Ok (f, [vsrs]).
Proof. exact (ex_intro _ (str "/r/S/S.VOB") (ex_intro _ [(str "/r/S/S.VOB", ser_volume volr)] (conj eq_refl (conj eq_refl ex_capital)))). Qed.
Print Assumptions C91_capital_refuted.
