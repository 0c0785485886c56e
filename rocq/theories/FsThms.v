(** FsThms: the statements of Props_Fs put together from the lemmas. *)
From Verif Require Import Base BaseFacts Path PathSpec PathFacts Rar RarSpec ReadSpec SrrSpec Samples Srr
  FsSpec FsFacts SafeFacts Store StoreFacts Disk DiskSpec DiskFacts.

Lemma extract_all_thm l paths folder f f' r n d out :
  srr_ok l ->
  extract_files (ser_srr l) paths folder [] f = (f', None, r) ->
  In (n, d) (stored_files l) -> target paths (normpath folder) n out -> fs_get f out = None ->
  (forall n' d', In (n', d') (stored_files l) -> target paths (normpath folder) n' out -> d' = d) ->
  fs_get f' out = Some d.
Proof.
  intros Hl H HI HT HN HU. apply extract_thm in H; [|assumption]. destruct H as (o & Ho & _ & Hq).
  rewrite Hq, HN. eapply extracted_all; eassumption.
Qed.
Lemma extract_inside srr paths folder packed f f' e l :
  extract_files srr paths folder packed f = (f', e, l) -> inside fs_get (normpath folder) f f'.
Proof. intros H. now apply extract_safe in H. Qed.
Lemma extract_kept srr paths folder packed f f' e l :
  extract_files srr paths folder packed f = (f', e, l) -> kept fs_get f f'.
Proof. intros H. now apply extract_safe in H. Qed.
Lemma reconstruct_inside P srr f s fl :
  reconstruct P srr f = (s, fl) -> inside fs_get (normpath (p_out P)) f (s_fs s).
Proof. intros H. now apply reconstruct_safe in H. Qed.
Lemma reconstruct_kept P srr f s fl : reconstruct P srr f = (s, fl) -> kept fs_get f (s_fs s).
Proof. intros H. now apply reconstruct_safe in H. Qed.

Lemma stored_names_files l : stored_names l = map fst (stored_files l).
Proof.
  unfold stored_names, stored_files. induction l as [|i l IH]; [reflexivity|]. cbn [map concat].
  rewrite IH, map_app. now destruct i.
Qed.
Lemma extracted_named paths folder sel l o : extracted paths folder sel l o ->
  Forall (fun nd => exists p, srr_path (fst nd) p) l.
Proof. induction 1 as [|n d out l o (p & T & _)|n d out l o (p & T & _)]; constructor; eauto. Qed.
Lemma extract_reject l paths folder packed f n :
  srr_ok l -> In n (stored_names l) -> (forall p, ~ srr_path n p) ->
  snd (fst (extract_files (ser_srr l) paths folder packed f)) = Some ValueError.
Proof.
  intros Hl Hn Hp. destruct (extract_files (ser_srr l) paths folder packed f) as [[f' e] r] eqn:E.
  apply extract_thm in E; [|assumption]. cbn. destruct e as [x|]; [destruct E as [-> _]; reflexivity|].
  exfalso. destruct E as (o & Ho & _). apply extracted_named in Ho. rewrite stored_names_files in Hn.
  apply in_map_iff in Hn. destruct Hn as ((n' & d) & <- & Hi). rewrite Forall_forall in Ho.
  destruct (Ho _ Hi) as (p & Hx). now apply (Hp p).
Qed.

Lemma stored_name_true cwd in_folder sfile n :
  relpath cwd sfile in_folder = Ok n -> stored_name cwd true in_folder sfile = Ok n.
Proof. intros H. unfold stored_name. now rewrite H. Qed.
Lemma stored_name_outside cwd c0 in_folder rs sfile rp :
  first_is 47 cwd = true -> denotes [] cwd c0 -> denotes c0 in_folder rs -> denotes c0 sfile rp ->
  sfile <> [] -> ~ (exists cs, rp = rev cs ++ rs) ->
  exists n, stored_name cwd true in_folder sfile = Ok n /\ exists cs, joined [47] (str ".." :: cs) n.
Proof.
  intros F D S P NE O. destruct (relpath_outside _ _ _ _ _ _ F D S P NE O) as (n & R & J).
  exists n. split; [now apply stored_name_true|exact J].
Qed.
Lemma stored_name_inside cwd c0 in_folder rs sfile cs :
  first_is 47 cwd = true -> denotes [] cwd c0 -> denotes c0 in_folder rs -> cs <> [] ->
  denotes c0 sfile (rev cs ++ rs) -> sfile <> [] ->
  exists n, stored_name cwd true in_folder sfile = Ok n /\ below cs n.
Proof.
  intros F D S NC P NE. destruct (relpath_below _ _ _ _ _ _ F D S NC P NE) as (n & R & J).
  exists n. split; [now apply stored_name_true|exact J].
Qed.
Lemma stored_name_bad : exists cwd in_folder sfile n,
  stored_name cwd true in_folder sfile = Ok n /\ n <> basename sfile /\
  exists cs, joined [47] (str ".." :: cs) n.
Proof.
  exists (str "/home"), (str "/home/release"), (str "/home/other/a.nfo"), (str "../other/a.nfo").
  split; [vm_compute; reflexivity|]. split; [vm_compute; discriminate|].
  exists [str "other"; str "a.nfo"]. exact (split_joined 47 (str "../other/a.nfo")).
Qed.

Lemma create_tmp_bad : exists srr t l f f' d,
  create_io srr (Some t) l None f [] = (f', [], Done) /\ fs_get f t = Some d /\ fs_get f' t <> Some d.
Proof.
  exists (str "a.srr"), (str "t"), [Some (bstr "new")], [(str "t", bstr "mine")],
    [(str "t", bstr "new"); (str "t", []); (str "t", bstr "mine")], (bstr "mine").
  split; [vm_compute; reflexivity|]. split; [vm_compute; reflexivity|vm_compute; discriminate].
Qed.

Lemma add_crash_bad : exists f srr tmp old new w f' w',
  fs_get f srr = Some old /\ fs_get f tmp = None /\
  add_io srr tmp true [Some new] f w = (f', w', Crashed) /\
  ~ crash_safe old new (fs_get f' srr).
Proof.
  exists [(str "a.srr", bstr "old")], (str "a.srr"), (str "t"), (bstr "old"), (bstr "new"),
    [Good; Good; Good; Good; Crash 0], [(str "t", bstr "new"); (str "t", [])], [].
  repeat split; try (vm_compute; reflexivity). vm_compute. intuition discriminate.
Qed.
Lemma remove_bad : exists f srr tmp old new w f' w',
  fs_get f srr = Some old /\ fs_get f tmp = None /\
  remove_io srr tmp true [Some new] f w = (f', w', Raised) /\
  forall q, fs_get f' q = None.
Proof.
  exists [(str "a.srr", bstr "old")], (str "a.srr"), (str "t"), (bstr "old"), (bstr "new"),
    [Good; Good; Good; Good; Fail 0; Good], [], [].
  repeat split; vm_compute; reflexivity.
Qed.
Lemma add_ended_all srr tmp f old ok l w f' w' r :
  fs_get f srr = Some old -> fs_get f tmp = None ->
  add_io srr tmp ok l f w = (f', w', r) ->
  untouched fs_get [srr; tmp] f f' /\
  ((fs_get f' srr = Some old /\ r <> Done) \/
   (ok = true /\ fs_get f' srr = Some (written l) /\ fs_get f' tmp = None /\ r = Done) \/
   (ok = true /\ fs_get f' srr = None /\ fs_get f' tmp = Some (written l) /\ r <> Done)).
Proof. intros A B. exact (add_ended srr tmp f old A B ok l w f' w' r). Qed.
Lemma rename_ended_all srr tmp f old ok l w f' w' r :
  fs_get f srr = Some old -> fs_get f tmp = None ->
  rename_io srr tmp ok l f w = (f', w', r) ->
  untouched fs_get [srr; tmp] f f' /\
  ((fs_get f' srr = Some old /\ r <> Done) \/
   (ok = true /\ fs_get f' srr = Some (written l) /\ fs_get f' tmp = None /\ r = Done) \/
   (ok = true /\ fs_get f' srr = None /\ fs_get f' tmp = Some (written l) /\ r <> Done)).
Proof. intros A B. exact (rename_ended srr tmp f old A B ok l w f' w' r). Qed.
Lemma remove_ended_all srr tmp f old ok l w f' w' r :
  fs_get f srr = Some old -> fs_get f tmp = None ->
  remove_io srr tmp ok l f w = (f', w', r) ->
  untouched fs_get [srr; tmp] f f' /\
  ((fs_get f' srr = Some old /\ r <> Done) \/
   (ok = true /\ fs_get f' srr = Some (written l) /\ fs_get f' tmp = None /\ r = Done) \/
   (ok = true /\ fs_get f' srr = None /\ fs_get f' tmp = Some (written l) /\ r <> Done) \/
   (fs_get f' srr = None /\ fs_get f' tmp = None /\ r = Raised)).
Proof.
  intros A B H. destruct (remove_ended srr tmp f old A B ok l w f' w' r H) as [[U X]|[U X]]; split; auto.
  tauto.
Qed.
Lemma edits_calm srr tmp f old l w :
  fs_get f srr = Some old -> fs_get f tmp = None -> Forall (eq Good) w ->
  (exists f' w', add_io srr tmp true l f w = (f', w', Done)) /\
  (exists f' w', rename_io srr tmp true l f w = (f', w', Done)) /\
  (exists f' w', remove_io srr tmp true l f w = (f', w', Done)).
Proof.
  intros A B C. split; [exact (add_calm srr tmp f old l w A B C)|].
  split; [exact (rename_calm srr tmp f old l w A B C)|exact (remove_calm srr tmp f old l w A B C)].
Qed.
Lemma replace_bad : exists src dest f w f' w',
  fs_get f src <> None /\ fs_get f dest <> None /\
  replace_result src dest f w = (f', w', Raised) /\ forall q, fs_get f' q = None.
Proof.
  exists (str "t"), (str "a"), [(str "t", bstr "new"); (str "a", bstr "old")], [Good; Fail 0], [], [].
  split; [vm_compute; discriminate|]. split; [vm_compute; discriminate|]. split; vm_compute; reflexivity.
Qed.
Lemma create_ends srr tmp l f w :
  fs_get f srr = None -> fs_get f (create_target srr tmp) = None -> Forall (eq Good) w ->
  (exists f' w', create_io srr tmp l None f w = (f', w', Done)) /\
  (exists f' w', create_io srr tmp l (Some true) f w = (f', w', Raised) /\ untouched fs_get [] f f').
Proof.
  intros G T C. split; [exact (create_ok_calm srr tmp l f w C G)|].
  destruct (create_gone srr tmp l f w C G T) as (f' & w' & E & U). exists f', w'. split; [exact E|]. intros q _. apply U.
Qed.
Lemma create_complete srr tmp l ending f w f' w' :
  fs_get f srr = None -> create_io srr tmp l ending f w = (f', w', Done) ->
  ending = None /\ fs_get f' (create_target srr tmp) = Some (written l) /\
  untouched fs_get [create_target srr tmp] f f'.
Proof.
  intros G H. destruct (create_done srr tmp l ending f w f' w' G H) as (A & B & C). split; [exact A|]. split; [exact B|]. intros q Hq. apply C. intros E. apply Hq. now left.
Qed.
Lemma create_half : exists srr l f f' w' d,
  fs_get f srr = None /\ create_io srr None l (Some false) f [] = (f', w', Raised) /\ fs_get f' srr = Some d.
Proof. exists (str "a.srr"), [Some (bstr "half")], [], [(str "a.srr", bstr "half"); (str "a.srr", [])], [], (bstr "half"). split; [reflexivity|]. split; vm_compute; reflexivity. Qed.
