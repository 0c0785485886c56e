(** Properties of editing SRR files: C04 to C07. *)
From Verif Require Import Base Path PathSpec Rar RarSpec ReadSpec SrrSpec Samples Srr EditFacts WriteFacts.

(** C04: adding files.  If it succeeds, the result is the old blocks and the new stored files before
    the first volume, and reads back as that; it is refused only if a stored name cannot be placed
    or is one of the names to add, or if a file cannot be stored. *)
Theorem C04_add : forall l names files,
  srr_ok l ->
  (forall out, add_stored_files (ser_srr l) names files = Ok out ->
     out = ser_srr (add_items (map stored_item files) l) /\ srr_ok (add_items (map stored_item files) l) /\
     read_all out = Ok (sblks 0 (add_items (map stored_item files) l)) /\
     (forall n p, In n (stored_names l) -> srr_path n p -> ~ In p names)) /\
  (Forall (fun n => exists p, srr_path n p /\ ~ In p names) (stored_names l) ->
   Forall (fun nd => storable (fst nd) /\ lenN (snd nd) < 4294967296) files ->
   exists out, add_stored_files (ser_srr l) names files = Ok out).
Proof. exact add_thm. Qed.
Print Assumptions C04_add.
(** where the new blocks go *)
Theorem C04_place : forall new l, exists a b,
  l = a ++ b /\ add_items new l = a ++ new ++ b /\
  Forall (fun i => is_srar i = false) a /\ (b = [] \/ exists i b', b = i :: b' /\ is_srar i = true).
Proof. exact add_items_split. Qed.
Print Assumptions C04_place.
Definition C04_files := [(str "Sample/s.srs", bstr "SRS"); (str "proof.jpg", [])].
Example C04_example : srr_ok srr1 /\
  add_stored_files (ser_srr srr1) [str "proof.jpg"] C04_files
  = Ok (ser_srr (add_items (map stored_item C04_files) srr1)) /\
  add_stored_files (ser_srr srr1) [str "CD1/a.sfv"] C04_files = Err DupeFileName.
Proof. split; [exact srr1_ok|split; vm_compute; reflexivity]. Qed.

(** C05: removing files *)
Theorem C05_remove : forall l names,
  srr_ok l ->
  remove_stored_files (ser_srr l) names = Ok (ser_srr (remove_items names l)) /\
  (20 <= lenN (ser_srr (remove_items names l)) ->
   read_all (ser_srr (remove_items names l)) = Ok (sblks 0 (remove_items names l))).
Proof. exact remove_thm. Qed.
Print Assumptions C05_remove.
Theorem C05_add_then_remove : forall l names files out,
  srr_ok l -> Forall (fun n => ~ In n (map fst files)) (stored_names l) ->
  add_stored_files (ser_srr l) names files = Ok out ->
  remove_stored_files out (map fst files) = Ok (ser_srr l).
Proof. exact add_remove_thm. Qed.
Print Assumptions C05_add_then_remove.
Example C05_example :
  stored_names (remove_items [str "CD1/a.sfv"; str "no"] srr1) = [str "a.nfo"] /\
  20 <= lenN (ser_srr (remove_items [str "CD1/a.sfv"; str "no"] srr1)) /\
  Forall (fun n => ~ In n (map fst C04_files)) (stored_names srr1) /\
  exists out, add_stored_files (ser_srr srr1) [] C04_files = Ok out.
Proof.
  split; [vm_compute; reflexivity|]. split; [vm_compute; discriminate|]. split; [ok|].
  eexists. vm_compute. reflexivity.
Qed.

(** C06: renaming a stored file *)
Theorem C06_rename : forall l old new,
  srr_ok l ->
  (~ In old (stored_names l) -> rename_stored_file (ser_srr l) old new = Err FileNotFound) /\
  (In old (stored_names l) -> storable new -> exists out, rename_stored_file (ser_srr l) old new = Ok out) /\
  (forall out, rename_stored_file (ser_srr l) old new = Ok out ->
     out = ser_srr (rename_items old new l) /\
     (20 <= lenN out -> read_all out = Ok (sblks 0 (rename_items old new l)))).
Proof. exact rename_thm. Qed.
Print Assumptions C06_rename.
Example C06_example : In (str "a.nfo") (stored_names srr1) /\ storable (str "dir/b.nfo") /\
  stored_files (rename_items (str "a.nfo") (str "dir/b.nfo") srr1)
  = [(str "dir/b.nfo", bstr "info text"); (str "CD1/a.sfv", bstr "a.rar 12345678")].
Proof.
  split; [vm_compute; auto|]. split; [|vm_compute; reflexivity].
  split; [vm_compute; discriminate|]. split; [discriminate|]. split; [|vm_compute; reflexivity].
  repeat constructor; vm_compute; intuition discriminate.
Qed.

(** C07: merging *)
Theorem C07_merge : forall ls app,
  Forall srr_ok ls ->
  (forall out, merge_srrs (map ser_srr ls) app = Ok out ->
     out = ser_srr (merge_items ls app) /\
     (20 <= lenN out -> read_all out = Ok (sblks 0 (merge_items ls app)))) /\
  (ls <> [] ->
   (match app with Some a => valid_text a /\ lenN (utf8 a) < 65527 | None => True end) ->
   Forall (fun t => lenN (utf8 t) < 65527) (concat (map app_names ls)) ->
   exists out, merge_srrs (map ser_srr ls) app = Ok out).
Proof. exact merge_thm. Qed.
Print Assumptions C07_merge.
Example C07_example : Forall srr_ok [srr2; srr1] /\
  first_nonempty (concat (map app_names [srr2; srr1])) = str "ReScene .NET 1.2" /\
  Forall (fun t => lenN (utf8 t) < 65527) (concat (map app_names [srr2; srr1])).
Proof.
  split; [constructor; [exact srr2_ok|constructor; [exact srr1_ok|constructor]]|]. split; [vm_compute; reflexivity|].
  repeat constructor; vm_compute; reflexivity.
Qed.
