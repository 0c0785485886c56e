(** Properties about the files on disk: C03, C08 to C12. *)
From Verif Require Import Base Path PathSpec PathFacts Rar RarSpec ReadSpec SrrSpec Samples Srr
  FsSpec FsFacts SafeFacts Store StoreFacts Disk DiskSpec DiskFacts FsThms.

(** C03: extracting stored files.  [o] lists the selected stored files with their places; a place is
    written with the bytes of the first file that goes there, unless a file exists; nothing else
    changes.  The only error is a stored name that is no path below the folder. *)
Theorem C03_extract : forall l paths folder packed f f' e r,
  srr_ok l ->
  extract_files (ser_srr l) paths folder packed f = (f', e, r) ->
  match e with
  | None => exists o, extracted paths (normpath folder) (asked packed) (stored_files l) o /\
      map fst r = map fst o /\
      forall q, fs_get f' q = match fs_get f q with Some d => Some d | None => first_for q o end
  | Some x => x = ValueError /\ exists n, In n (stored_names l) /\ forall p, ~ srr_path n p
  end.
Proof. exact extract_thm. Qed.
Print Assumptions C03_extract.
(** extracting everything: each stored file is at its place, if no other file claims that place *)
Theorem C03_extract_all : forall l paths folder f f' r n d out,
  srr_ok l ->
  extract_files (ser_srr l) paths folder [] f = (f', None, r) ->
  In (n, d) (stored_files l) -> target paths (normpath folder) n out -> fs_get f out = None ->
  (forall n' d', In (n', d') (stored_files l) -> target paths (normpath folder) n' out -> d' = d) ->
  fs_get f' out = Some d.
Proof. exact extract_all_thm. Qed.
Print Assumptions C03_extract_all.
Example C03_example : srr_ok srr1 /\
  let '(f', e, r) := extract_files (ser_srr srr1) true (str "/tmp/../out/") [] [] in
  e = None /\ fs_get f' (str "/out/CD1/a.sfv") = Some (bstr "a.rar 12345678") /\
  fs_get f' (str "/out/a.nfo") = Some (bstr "info text").
Proof. split; [exact srr1_ok|vm_compute; repeat split; reflexivity]. Qed.

(** C08: whatever bytes the SRR file consists of, only paths below the output folder change *)
Theorem C08_extract : forall srr paths folder packed f f' e l,
  extract_files srr paths folder packed f = (f', e, l) ->
  inside fs_get (normpath folder) f f'.
Proof. exact extract_inside. Qed.
Print Assumptions C08_extract.
Theorem C08_reconstruct : forall P srr f s fl,
  reconstruct P srr f = (s, fl) -> inside fs_get (normpath (p_out P)) f (s_fs s).
Proof. exact reconstruct_inside. Qed.
Print Assumptions C08_reconstruct.
(** such a path means a place strictly below the folder that [folder] means *)
Theorem C08_place : forall cwd folder r0 cs p,
  denotes cwd folder r0 -> below cs p ->
  denotes cwd (in_folder (normpath folder) p) (rev cs ++ r0).
Proof. exact in_folder_denotes. Qed.
Print Assumptions C08_place.
(** names that cannot be placed are rejected *)
Theorem C08_reject : forall l paths folder packed f n,
  srr_ok l -> In n (stored_names l) -> (forall p, ~ srr_path n p) ->
  snd (fst (extract_files (ser_srr l) paths folder packed f)) = Some ValueError.
Proof. exact extract_reject. Qed.
Print Assumptions C08_reject.
Definition C08_hostile : list sitem :=
  [app_item (str "x"); stored_item (str "ok.nfo", bstr "1"); stored_item (str "a/../../etc/passwd", bstr "2")].
Example C08_example :
  extract_files (ser_srr C08_hostile) true (str "out") [] []
  = ([(str "out/ok.nfo", bstr "1")], Some ValueError, [(str "out/ok.nfo", true)]) /\
  denotes [str "home"] (str "./out/../out") [str "out"; str "home"] /\ below [str "ok.nfo"] (str "ok.nfo").
Proof.
  split; [vm_compute; reflexivity|]. split.
  - apply denotes_split. vm_compute. reflexivity.
  - split; [discriminate|]. assert (N : ~ In 47 (str "ok.nfo")) by (vm_compute; intuition discriminate).
    split; [repeat constructor; try discriminate; exact N|]. constructor. intros s [<-|[]]. exact N.
Qed.

(** C09 is false: no file gets the fallback name, because a str is compared to bytes.  A file
    outside the folder is stored under a name that begins with two dots. *)
Theorem C09_refuted : exists cwd in_folder sfile n,
  stored_name cwd true in_folder sfile = Ok n /\ n <> basename sfile /\
  exists cs, joined [47] (str ".." :: cs) n.
Proof. exact stored_name_bad. Qed.
Print Assumptions C09_refuted.
(** it is so for every file outside the folder *)
Theorem C09_outside_name : forall cwd c0 in_folder rs sfile rp,
  first_is 47 cwd = true -> denotes [] cwd c0 -> denotes c0 in_folder rs -> denotes c0 sfile rp ->
  sfile <> [] -> ~ (exists cs, rp = rev cs ++ rs) ->
  exists n, stored_name cwd true in_folder sfile = Ok n /\ exists cs, joined [47] (str ".." :: cs) n.
Proof. exact stored_name_outside. Qed.
Print Assumptions C09_outside_name.
(** the part of C09 that holds: a file below the folder is stored under the path that leads there *)
Theorem C09_inside_partial : forall cwd c0 in_folder rs sfile cs,
  first_is 47 cwd = true -> denotes [] cwd c0 -> denotes c0 in_folder rs -> cs <> [] ->
  denotes c0 sfile (rev cs ++ rs) -> sfile <> [] ->
  exists n, stored_name cwd true in_folder sfile = Ok n /\ below cs n.
Proof. exact stored_name_inside. Qed.
Print Assumptions C09_inside_partial.
(** without paths: the part after the last slash, for stored files and volumes *)
Theorem C09_flat : forall cwd in_folder sfile, exists n,
  stored_name cwd false in_folder sfile = Ok n /\ volume_name cwd false in_folder sfile = Ok n /\
  ~ In 47 n /\ (sfile = n \/ exists p, sfile = p ++ [47] ++ n).
Proof. exact stored_name_flat. Qed.
Print Assumptions C09_flat.
Example C09_example :
  stored_name (str "/home/u") true (str "rel/./") (str "/home/u/x/../rel/CD1/a.sfv") = Ok (str "CD1/a.sfv") /\
  stored_name (str "/home/u") true (str "rel") (str "proof/p.jpg") = Ok (str "../proof/p.jpg") /\
  denotes [str "u"; str "home"] (str "rel/./") [str "rel"; str "u"; str "home"] /\
  denotes [str "u"; str "home"] (str "/home/u/x/../rel/CD1/a.sfv")
    (rev [str "CD1"; str "a.sfv"] ++ [str "rel"; str "u"; str "home"]).
Proof.
  split; [vm_compute; reflexivity|]. split; [vm_compute; reflexivity|].
  split; apply denotes_split; vm_compute; reflexivity.
Qed.

(** C10: existing files stay, with the default policy.  Creating: [tmp] is tmp_srr_name, which has to
    be unset or name no file. *)
Theorem C10_create : forall srr tmp l ending f w f' w' r,
  (forall t, tmp = Some t -> t <> [] -> fs_get f t = None) ->
  create_io srr tmp l ending f w = (f', w', r) ->
  kept fs_get f f' /\ (forall d, fs_get f srr = Some d -> f' = f /\ r = Done).
Proof. exact create_thm. Qed.
Print Assumptions C10_create.
Theorem C10_extract : forall srr paths folder packed f f' e l,
  extract_files srr paths folder packed f = (f', e, l) -> kept fs_get f f'.
Proof. exact extract_kept. Qed.
Print Assumptions C10_extract.
Theorem C10_reconstruct : forall P srr f s fl,
  reconstruct P srr f = (s, fl) -> kept fs_get f (s_fs s).
Proof. exact reconstruct_kept. Qed.
Print Assumptions C10_reconstruct.
(** the condition on [tmp] is needed: that file is never looked at *)
Theorem C10_tmp_name_refuted : exists srr t l f f' d,
  create_io srr (Some t) l None f [] = (f', [], Done) /\ fs_get f t = Some d /\ fs_get f' t <> Some d.
Proof. exact create_tmp_bad. Qed.
Print Assumptions C10_tmp_name_refuted.
Example C10_example :
  let f := [(str "/in/a.txt", bstr "abcde"); (str "/out/CD1/a.r00", bstr "mine")] in
  let P := mkParams (str "/in") (str "/out") true false false false [] in
  let '(s, fl) := reconstruct P (ser_srr srr1) f in
  fl = Return /\ fs_get (s_fs s) (str "/out/CD1/a.r00") = Some (bstr "mine") /\
  fs_get (s_fs s) (str "/out/CD1/a.rar") = Some (ser_volume vol1) /\
  create_io (str "x.srr") None [Some (bstr "new")] None [(str "x.srr", bstr "old")] []
  = ([(str "x.srr", bstr "old")], [], Done).
Proof. vm_compute. repeat split; reflexivity. Qed.

(** C11 is false for all three edits: the SRR file is removed before the new one gets its name.  A
    crash between the two leaves no SRR file. *)
Theorem C11_crash_refuted : exists f srr tmp old new w f' w',
  fs_get f srr = Some old /\ fs_get f tmp = None /\
  add_io srr tmp true [Some new] f w = (f', w', Crashed) /\
  ~ crash_safe old new (fs_get f' srr).
Proof. exact add_crash_bad. Qed.
Print Assumptions C11_crash_refuted.
(** removing stored files loses both the old and the new file if the last renaming fails *)
Theorem C11_remove_loses_refuted : exists f srr tmp old new w f' w',
  fs_get f srr = Some old /\ fs_get f tmp = None /\
  remove_io srr tmp true [Some new] f w = (f', w', Raised) /\
  forall q, fs_get f' q = None.
Proof. exact remove_bad. Qed.
Print Assumptions C11_remove_loses_refuted.
(** What holds: other files are untouched; the SRR path has the old content if the edit did not end
    well, or the new content if it did, or does not exist, and then the new content is complete in the
    temporary file.  Missing from C11: the last case. *)
Theorem C11_add_partial : forall srr tmp f old ok l w f' w' r,
  fs_get f srr = Some old -> fs_get f tmp = None ->
  add_io srr tmp ok l f w = (f', w', r) ->
  untouched fs_get [srr; tmp] f f' /\
  ((fs_get f' srr = Some old /\ r <> Done) \/
   (ok = true /\ fs_get f' srr = Some (written l) /\ fs_get f' tmp = None /\ r = Done) \/
   (ok = true /\ fs_get f' srr = None /\ fs_get f' tmp = Some (written l) /\ r <> Done)).
Proof. exact add_ended_all. Qed.
Print Assumptions C11_add_partial.
Theorem C11_rename_partial : forall srr tmp f old ok l w f' w' r,
  fs_get f srr = Some old -> fs_get f tmp = None ->
  rename_io srr tmp ok l f w = (f', w', r) ->
  untouched fs_get [srr; tmp] f f' /\
  ((fs_get f' srr = Some old /\ r <> Done) \/
   (ok = true /\ fs_get f' srr = Some (written l) /\ fs_get f' tmp = None /\ r = Done) \/
   (ok = true /\ fs_get f' srr = None /\ fs_get f' tmp = Some (written l) /\ r <> Done)).
Proof. exact rename_ended_all. Qed.
Print Assumptions C11_rename_partial.
(** and for removing there is the case that both are lost, only by a failing operation *)
Theorem C11_remove_partial : forall srr tmp f old ok l w f' w' r,
  fs_get f srr = Some old -> fs_get f tmp = None ->
  remove_io srr tmp ok l f w = (f', w', r) ->
  untouched fs_get [srr; tmp] f f' /\
  ((fs_get f' srr = Some old /\ r <> Done) \/
   (ok = true /\ fs_get f' srr = Some (written l) /\ fs_get f' tmp = None /\ r = Done) \/
   (ok = true /\ fs_get f' srr = None /\ fs_get f' tmp = Some (written l) /\ r <> Done) \/
   (fs_get f' srr = None /\ fs_get f' tmp = None /\ r = Raised)).
Proof. exact remove_ended_all. Qed.
Print Assumptions C11_remove_partial.
(** without faults the edits succeed *)
Theorem C11_calm_partial : forall srr tmp f old l w,
  fs_get f srr = Some old -> fs_get f tmp = None -> Forall (eq Good) w ->
  (exists f' w', add_io srr tmp true l f w = (f', w', Done)) /\
  (exists f' w', rename_io srr tmp true l f w = (f', w', Done)) /\
  (exists f' w', remove_io srr tmp true l f w = (f', w', Done)).
Proof. exact edits_calm. Qed.
Print Assumptions C11_calm_partial.
Example C11_example :
  let f := [(str "a.srr", bstr "old"); (str "b", bstr "b")] in
  let l := [Some (bstr "new "); None; Some (bstr "content")] in
  (let '(f', _, r) := add_io (str "a.srr") (str "t") true l f [Good; Good; Good; Fail 2] in
   r = Raised /\ fs_get f' (str "a.srr") = Some (bstr "old") /\ fs_get f' (str "t") = None) /\
  (let '(f', _, r) := add_io (str "a.srr") (str "t") true l f [] in
   r = Done /\ fs_get f' (str "a.srr") = Some (bstr "new content") /\ fs_get f' (str "b") = Some (bstr "b")).
Proof. vm_compute. repeat split; reflexivity. Qed.

(** C12 is false: the destination is unlinked first; if renaming then fails, the temporary file is
    unlinked as well. *)
Theorem C12_refuted : exists src dest f w f' w',
  fs_get f src <> None /\ fs_get f dest <> None /\
  replace_result src dest f w = (f', w', Raised) /\ forall q, fs_get f' q = None.
Proof. exact replace_bad. Qed.
Print Assumptions C12_refuted.
(** What holds: success, or the destination as before, or (missing from C12) a destination that existed
    is gone.  The new content is lost only together with an error. *)
Theorem C12_partial : forall src dest f w f' w' r new,
  src <> dest -> fs_get f src = Some new ->
  replace_result src dest f w = (f', w', r) ->
  untouched fs_get [src; dest] f f' /\
  ((r = Done /\ fs_get f' dest = Some new /\ fs_get f' src = None) \/
   (r <> Done /\ fs_get f' dest = fs_get f dest /\ (fs_get f' src = Some new \/ r = Raised)) \/
   (r <> Done /\ fs_get f dest <> None /\ fs_get f' dest = None /\
    (fs_get f' src = Some new \/ r = Raised))).
Proof. exact replace_thm. Qed.
Print Assumptions C12_partial.
Theorem C12_no_temporary : forall src dest f w,
  fs_get f src = None -> replace_result src dest f w = (f, w, Done).
Proof. exact replace_none. Qed.
Print Assumptions C12_no_temporary.
Example C12_example :
  let f := [(str "a-x.tmp", bstr "new"); (str "a", bstr "old"); (str "b", bstr "b")] in
  (let '(f', _, r) := replace_result (str "a-x.tmp") (str "a") f [Fail 0] in
   r = Done /\ fs_get f' (str "a") = Some (bstr "new") /\ fs_get f' (str "a-x.tmp") = None) /\
  (let '(f', _, r) := replace_result (str "a-x.tmp") (str "a") f [Fail 0; Fail 0] in
   r = Raised /\ fs_get f' (str "a") = Some (bstr "old")).
Proof. vm_compute. repeat split; reflexivity. Qed.

(** C49: what is left of a creation.  If it says it is done the file is complete, whatever happened to
    other operations. *)
Theorem C49_complete : forall srr tmp l ending f w f' w',
  fs_get f srr = None -> create_io srr tmp l ending f w = (f', w', Done) ->
  ending = None /\ fs_get f' (create_target srr tmp) = Some (written l) /\
  untouched fs_get [create_target srr tmp] f f'.
Proof. exact create_complete. Qed.
Print Assumptions C49_complete.
(** when no operation fails it is done, and with a missing or compressed volume nothing is left behind *)
Theorem C49_ends : forall srr tmp l f w,
  fs_get f srr = None -> fs_get f (create_target srr tmp) = None -> Forall (eq Good) w ->
  (exists f' w', create_io srr tmp l None f w = (f', w', Done)) /\
  (exists f' w', create_io srr tmp l (Some true) f w = (f', w', Raised) /\ untouched fs_get [] f f').
Proof. exact create_ends. Qed.
Print Assumptions C49_ends.
(** other errors leave half an SRR file *)
Theorem C49_other_error_refuted : exists srr l f f' w' d,
  fs_get f srr = None /\ create_io srr None l (Some false) f [] = (f', w', Raised) /\ fs_get f' srr = Some d.
Proof. exact create_half. Qed.
Print Assumptions C49_other_error_refuted.
Example C49_example :
  let f := [(str "b", bstr "b")] in
  (let '(f', _, r) := create_io (str "x.srr") None [Some (bstr "he"); None; Some (bstr "ad")] None f [Good] in
   r = Done /\ fs_get f' (str "x.srr") = Some (bstr "head")) /\
  (let '(f', _, r) := create_io (str "x.srr") None [Some (bstr "he")] (Some true) f [] in r = Raised /\ f' = f).
Proof. vm_compute. repeat split; reflexivity. Qed.
