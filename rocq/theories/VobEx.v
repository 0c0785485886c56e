(** VobEx: a sample that is a RAR volume. *)
From Verif Require Import Base BaseFacts Path PathSpec PathFacts Rar RarSpec ReadSpec SrrSpec RecovSpec FsSpec SetSpec Samples Srr FsFacts SrrFacts RebuildFacts CreateFacts RebuildThms Disk Media WorkDirSpec Vob VobSpec VobFacts.

Definition vs : text := str "/r/S/s.vob".
Definition vsrs : text := str "/w/S/s.srs".
Definition vsig : bytes := bstr "Rar!..".
Definition vdisk : fs := [(vs, ser_volume volr); (vsrs, bstr "srs")].
Definition vdisk2 : fs := (str "/w/S/s.srr", bstr "x") :: vdisk.
Lemma v_names : valid_text (str "app") /\ lenN (utf8 (str "app")) < 65527 /\ valid_text (basename vs) /\ lenN (utf8 (basename vs)) + 9 < 65536 /\ rared_vob vs vsig.
Proof.
  split; [vm_compute; discriminate|]. split; [vm_compute; reflexivity|]. split; [vm_compute; discriminate|]. split; [vm_compute; reflexivity|].
  split; [exists (str "/r/S/s"); reflexivity|exists (bstr ".."); reflexivity].
Qed.
Lemma v_noslash n : forallb (fun c => negb (c =? 47)) (str n) = true -> ~ In 47 (str n).
Proof. intros H I. rewrite forallb_forall in H. apply H in I. discriminate I. Qed.
Lemma v_place : vob_place (fs_get vdisk) vsrs (str "s.vob") (str "/w/S/s.srr") /\ vob_place (fs_get vdisk2) vsrs (str "s.vob") (str "/w/S/s.vob.srr").
Proof.
  split; exists (str "/w/S"), (str "s"); (split; [exists (str "/w/"), 83; now split|]); (split; [now apply v_noslash|]); (split; [now apply v_noslash|]);
  (split; [reflexivity|]); (split; [reflexivity|]); [left; reflexivity|right; split; [discriminate|reflexivity]].
Qed.
Lemma ex_vob : (valid_text (str "app") /\ lenN (utf8 (str "app")) < 65527 /\ valid_text (basename vs) /\ lenN (utf8 (basename vs)) + 9 < 65536 /\ rared_vob vs vsig) /\
  store_volume volr /\ fs_get vdisk vs = Some (ser_volume volr) /\
  (vob_place (fs_get vdisk) vsrs (str "s.vob") (str "/w/S/s.srr") /\ vob_place (fs_get vdisk2) vsrs (str "s.vob") (str "/w/S/s.vob.srr")) /\
  match vob_srr (str "app") (str "r") vs vsrs (Some (str "s.vob", vsig)) vdisk [vsrs] with Ok (_, l) => l = [vsrs; str "/w/S/s.srr"] | Err _ => False end /\
  match vob_srr (str "app") (str "r") vs vsrs (Some (str "s.vob", vsig)) vdisk2 [vsrs] with Ok (_, l) => l = [vsrs; str "/w/S/s.vob.srr"] | Err _ => False end.
Proof.
  split; [exact v_names|]. split; [exact (Forall_inv rset_store)|]. split; [reflexivity|]. split; [exact v_place|]. vm_compute. now split.
Qed.
Lemma ex_supplied : p_part rparm = [] /\ target (p_paths rparm) (normpath (p_out rparm)) (basename vs) (str "/out/s.vob") /\ fs_get rdisk (str "/out/s.vob") = None /\
  supplied (fun p => fs_get rdisk (in_folder (p_in rparm) p)) None (pieces volr).
Proof.
  split; [reflexivity|]. split; [apply (opath_spec _ true (str "/out")); reflexivity|]. split; [reflexivity|].
  change (pieces volr) with [(FHEAD 2 "a.txt" 5 0x11, bstr "abc")].
  apply (sup_new _ _ _ _ (bstr "de")); [intros; discriminate| |constructor].
  change (content_of _ _ _) with (exists p, rar_path (str "a.txt") p /\
    fs_get rdisk (in_folder (p_in rparm) p) = Some (bstr "abcde") /\ (5 = 5 \/ 5 = 0xFFFFFFFF \/ 5 = 0xFFFFFFFFFFFFFFFF)).
  exists (str "a.txt"). split; [apply rar_os_file_name_spec; reflexivity|]. split; [reflexivity|now left].
Qed.
(** a sample that ends in the middle of a header *)
Definition broken : bytes := takeN 12 (ser_volume volr).
Lemma ex_broken : match vob_srr (str "app") (str "r") vs vsrs (Some (str "s.vob", vsig)) [(vs, broken)] [vsrs] with
  | Ok (f', l) => l = [vsrs] /\ fs_get f' (str "/w/S/s.srr-r.tmp") <> None | Err _ => False end.
Proof. vm_compute. split; [reflexivity|discriminate]. Qed.
Lemma ex_left : exists f f' q, fs_get f q = None /\ fs_get f' q <> None /\ vob_srr (str "app") (str "r") vs vsrs (Some (str "s.vob", vsig)) f [vsrs] = Ok (f', [vsrs]).
Proof.
  exists [(vs, broken)]. pose proof ex_broken as H. destruct (vob_srr _ _ _ _ _ _ _) as [[f' l]|e]; [|contradiction]. destruct H as [-> H].
  exists f', (str "/w/S/s.srr-r.tmp"). split; [reflexivity|]. split; [exact H|reflexivity].
Qed.
Lemma ex_capital : vob_srr (str "app") (str "r") (str "/r/S/S.VOB") vsrs (Some (str "S.VOB", vsig)) [(str "/r/S/S.VOB", ser_volume volr)] [vsrs] = Ok ([(str "/r/S/S.VOB", ser_volume volr)], [vsrs]).
Proof. reflexivity. Qed.
