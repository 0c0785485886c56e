(** Props_Info: the listing (C25) and the content hash (C26) of an SRR file. *)
From Coq Require Import Permutation Sorted.
From Verif Require Import Base BaseFacts Path Rar RarSpec ReadSpec SrrSpec SetSpec Srr Info InfoSpec InfoFacts InfoThms Samples.

(** C25: volumes whose file names differ without folders and in lower case are all listed, with
    their names and sizes, for every lower/upper case function. *)
Theorem C25_sizes : forall lowf upf l vs,
  srr_ok l -> holds_volumes l vs -> Forall (fun nv => volume_ok (snd nv) /\ Forall rr_size_ok (v_items (snd nv))) vs ->
  NoDup (map (fun nv => basename (lowf (fst nv))) vs) ->
  exists i, info lowf upf (ser_srr l) = Ok i /\
  Forall2 (fun nv kr => fst kr = basename (lowf (fst nv)) /\ ri_name (snd kr) = fst nv /\ ri_size (snd kr) = lenN (ser_volume (snd nv))) vs (i_rars i).
Proof. exact sizes_all. Qed.
Print Assumptions C25_sizes.
Example C25_sizes_example : srr_ok srr1 /\ holds_volumes srr1 [(str "CD1/a.rar", vol1); (str "CD1/a.r00", vol2)] /\
  Forall (fun nv => volume_ok (snd nv) /\ Forall rr_size_ok (v_items (snd nv))) [(str "CD1/a.rar", vol1); (str "CD1/a.r00", vol2)] /\
  NoDup (map (fun nv : text * volume => basename (lower (fst nv))) [(str "CD1/a.rar", vol1); (str "CD1/a.r00", vol2)]).
Proof.
  split; [exact srr1_ok|]. split; [exact srr1_holds|]. split; [exact vols_ok|].
  vm_compute. constructor; [intros [H|[]]; discriminate|]. constructor; [intros []|constructor].
Qed.
(** An SRR file that has been created from volumes lists them. *)
Theorem C25_created : forall lowf upf an stores vols c osos srr,
  vols <> [] -> Forall (fun nv => volume_ok (snd nv) /\ Forall rr_size_ok (v_items (snd nv))) vols ->
  NoDup (map (fun nv => basename (lowf (fst nv))) vols) ->
  create_srr an stores (map (fun nv => (fst nv, ser_volume (snd nv))) vols) c osos = Ok srr ->
  exists i, info lowf upf srr = Ok i /\
  Forall2 (fun nv kr => fst kr = basename (lowf (fst nv)) /\ ri_name (snd kr) = fst nv /\ ri_size (snd kr) = lenN (ser_volume (snd nv))) vols (i_rars i).
Proof. exact created_sizes. Qed.
Print Assumptions C25_created.
Example C25_created_example : exists srr,
  create_srr (str "x") [] [(str "a.rar", ser_volume vol1); (str "a.r00", ser_volume vol2)] false [] = Ok srr.
Proof. eexists. vm_compute. reflexivity. Qed.
(** Whatever the names: the last volume of each name has its entry, with its own size. *)
Theorem C25_last : forall lowf upf l vs a n v b,
  srr_ok l -> holds_volumes l vs -> Forall (fun nv => volume_ok (snd nv) /\ Forall rr_size_ok (v_items (snd nv))) vs ->
  vs = a ++ (n, v) :: b -> (forall nv, In nv b -> basename (lowf (fst nv)) <> basename (lowf n)) ->
  exists i r, info lowf upf (ser_srr l) = Ok i /\ In (basename (lowf n), r) (i_rars i) /\ NoDup (map fst (i_rars i)) /\
    ri_name r = n /\ ri_size r = lenN (ser_volume v).
Proof. exact sizes_last. Qed.
Print Assumptions C25_last.
Example C25_last_example : srr_ok srr_cds /\ holds_volumes srr_cds [(str "CD1/a.rar", vol1); (str "CD2/a.rar", vol2)] /\
  forall nv, In nv (@nil (text * volume)) -> basename (lower (fst nv)) <> basename (lower (str "CD2/a.rar")).
Proof. split; [exact srr_cds_ok|]. split; [exact srr_cds_holds|]. intros nv []. Qed.
(** Every volume is listed: false.  CD1/a.rar is missing from the listing of a release with CD1/a.rar and CD2/a.rar. *)
Theorem C25_collision_refuted : exists l vs i,
  srr_ok l /\ holds_volumes l vs /\ length vs = 2%nat /\ NoDup (map fst vs) /\
  info lower (fun t => t) (ser_srr l) = Ok i /\ length (i_rars i) = 1%nat.
Proof.
  exists srr_cds, [(str "CD1/a.rar", vol1); (str "CD2/a.rar", vol2)].
  destruct (info lower (fun t => t) (ser_srr srr_cds)) as [i|e] eqn:E; [|vm_compute in E; discriminate].
  exists i. split; [exact srr_cds_ok|]. split; [exact srr_cds_holds|]. split; [reflexivity|]. split.
  - vm_compute. constructor; [intros [H|[]]; discriminate|]. constructor; [intros []|constructor].
  - split; [reflexivity|]. vm_compute in E. injection E as <-. reflexivity.
Qed.
Print Assumptions C25_collision_refuted.

(** C26: the bytes hashed are the blocks of all volumes, up to the last header, in the order of the names. *)
Theorem C26_bytes : forall lowf upf l vs,
  srr_ok l -> holds_volumes l vs -> Forall (fun nv => volume_ok (snd nv) /\ Forall rr_size_ok (v_items (snd nv))) vs ->
  NoDup (map (fun nv => basename (lowf (fst nv))) vs) ->
  exists vs', Permutation vs vs' /\ StronglySorted text_before (map (fun nv => basename (lowf (fst nv))) vs') /\
  content_bytes lowf upf (ser_srr l) = Ok (concat (map (fun nv => vol_meta (snd nv)) vs')).
Proof. exact content_thm. Qed.
Print Assumptions C26_bytes.
Example C26_bytes_example : content_bytes lower (fun t => t) (ser_srr srr1) = Ok (vol_meta vol2 ++ vol_meta vol1).
Proof. vm_compute. reflexivity. Qed.
(** Files with the same metadata of volumes under the same names have the same hash, whatever else is
    in them and in whatever order. *)
Theorem C26_same : forall lowf upf l1 l2 vs1 vs2,
  srr_ok l1 -> srr_ok l2 -> holds_volumes l1 vs1 -> holds_volumes l2 vs2 ->
  Forall (fun nv => volume_ok (snd nv) /\ Forall rr_size_ok (v_items (snd nv))) vs1 ->
  Forall (fun nv => volume_ok (snd nv) /\ Forall rr_size_ok (v_items (snd nv))) vs2 ->
  NoDup (map (fun nv => basename (lowf (fst nv))) vs1) ->
  Permutation (map (fun nv => (basename (lowf (fst nv)), vol_meta (snd nv))) vs1) (map (fun nv => (basename (lowf (fst nv)), vol_meta (snd nv))) vs2) ->
  exists b, content_bytes lowf upf (ser_srr l1) = Ok b /\ content_bytes lowf upf (ser_srr l2) = Ok b.
Proof. exact content_same. Qed.
Print Assumptions C26_same.
Definition srr1_turned : list sitem :=
  app_item (str "other") :: vol_items (str "A.R00") vol2 ++ stored_item (str "x.nfo", bstr "text") :: vol_items (str "a.rar") vol1.
Example C26_same_example :
  Permutation (map (fun nv => (basename (lower (fst nv)), vol_meta (snd nv))) [(str "CD1/a.rar", vol1); (str "CD1/a.r00", vol2)])
              (map (fun nv => (basename (lower (fst nv)), vol_meta (snd nv))) [(str "A.R00", vol2); (str "a.rar", vol1)]) /\
  content_bytes lower (fun t => t) (ser_srr srr1_turned) = content_bytes lower (fun t => t) (ser_srr srr1).
Proof. split; [apply perm_swap|vm_compute; reflexivity]. Qed.
(** No edit of the stored files changes the hash. *)
Theorem C26_edits : forall lowf upf l vs,
  srr_ok l -> holds_volumes l vs -> vs <> [] ->
  Forall (fun nv => volume_ok (snd nv) /\ Forall rr_size_ok (v_items (snd nv))) vs ->
  NoDup (map (fun nv => basename (lowf (fst nv))) vs) -> forall out,
  (exists names files, add_stored_files (ser_srr l) names files = Ok out) \/
  (exists names, remove_stored_files (ser_srr l) names = Ok out) \/
  (exists old new, rename_stored_file (ser_srr l) old new = Ok out) ->
  forall digest, exists h, content_hash lowf upf digest out = Ok h /\ content_hash lowf upf digest (ser_srr l) = Ok h.
Proof. exact hash_edits. Qed.
Print Assumptions C26_edits.
Example C26_edits_example : exists out, remove_stored_files (ser_srr srr1) [str "a.nfo"] = Ok out /\ out <> ser_srr srr1.
Proof. eexists. split; [vm_compute; reflexivity|vm_compute; discriminate]. Qed.
(** The metadata of every volume is hashed: false.  Removing CD1 of a release leaves the hash as it was. *)
Theorem C26_collision_refuted : exists l l' n v vs b,
  srr_ok l /\ srr_ok l' /\ holds_volumes l ((n, v) :: vs) /\ holds_volumes l' vs /\
  content_bytes lower (fun t => t) (ser_srr l) = Ok b /\ content_bytes lower (fun t => t) (ser_srr l') = Ok b.
Proof.
  exists srr_cds, srr_cd2, (str "CD1/a.rar"), vol1, [(str "CD2/a.rar", vol2)], (vol_meta vol2).
  split; [exact srr_cds_ok|]. split; [exact srr_cd2_ok|]. split; [exact srr_cds_holds|]. split; [exact srr_cd2_holds|].
  split; vm_compute; reflexivity.
Qed.
Print Assumptions C26_collision_refuted.
