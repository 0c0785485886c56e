(** Props_Match: the CRC check of reconstruct (C28). *)
From Verif Require Import Base Path PathSpec CrcSpec Crc Rar RarSpec ReadSpec SrrSpec FsSpec SetSpec MatchSpec Samples Srr MatchFacts RebuildThms.

(** C28: if a reconstruction with CRC check ends without CRC messages, all parts of files that were
    taken from disk have the CRCs of the archive. *)
Theorem C28_silent : forall P l f s,
  srr_ok l -> p_part P = [] -> p_skip_crc P = false -> reconstruct P (ser_srr l) f = (s, Continue) ->
  (forall n, ~ In (ECrcFile n) (s_events s) /\ ~ In (ECrcVolume n) (s_events s)) ->
  crcs_match (fun p => fs_get f (in_folder (p_in P) p)) None (file_parts l).
Proof. exact match_thm. Qed.
Print Assumptions C28_silent.
(** no false alarm *)
Theorem C28_quiet : forall P l f s,
  srr_ok l -> p_part P = [] -> p_skip_crc P = false -> reconstruct P (ser_srr l) f = (s, Continue) ->
  Forall (fun hk => is_dir (fst hk) = false -> exists p d, rar_path (h_text (fst hk)) p /\ fs_get f (in_folder (p_in P) p) = Some d) (file_parts l) ->
  crcs_match (fun p => fs_get f (in_folder (p_in P) p)) None (file_parts l) ->
  forall n, ~ In (ECrcFile n) (s_events s) /\ ~ In (ECrcVolume n) (s_events s).
Proof. exact quiet_thm. Qed.
Print Assumptions C28_quiet.
(** For one file: its parts follow each other, and the last one is the end of the file.  If a file on
    disk is not larger than the parts, then it has the CRC of the last part. *)
Theorem C28_file : forall P l f s pre g h k post n p c,
  srr_ok l -> p_part P = [] -> p_skip_crc P = false -> reconstruct P (ser_srr l) f = (s, Continue) ->
  (forall n, ~ In (ECrcFile n) (s_events s) /\ ~ In (ECrcVolume n) (s_events s)) ->
  file_parts l = pre ++ (g ++ [(h, k)]) ++ post ->
  Forall (fun hk => h_text (fst hk) = n /\ is_dir (fst hk) = false) (g ++ [(h, k)]) ->
  (forall pre' x, pre = pre' ++ [x] -> h_text (fst x) <> n) ->
  N.testbit (h_flags h) 1 = false -> h_method h = 0x30 ->
  rar_path n p -> fs_get f (in_folder (p_in P) p) = Some c -> lenN c <= total g + k -> is_crc32 c (h_fcrc h).
Proof. exact match_file_thm. Qed.
Print Assumptions C28_file.
(** a file in two volumes, with the right CRCs *)
Definition cvol1 : volume := mkVolume
  [(AHEAD, []); (HFile (FHEAD 2 "a.txt" 5 0x352441C2) 3, bstr "abc"); (ENDHEAD, [])] [].
Definition cvol2 : volume := mkVolume
  [(AHEAD, []); (HFile (FHEAD 1 "a.txt" 5 0x8587D865) 2, bstr "de"); (HFile (FHEAD 0 "b.txt" 0 0) 0, []); (ENDHEAD, [])] [].
Definition csrr : list sitem := app_item (str "x") :: vol_items (str "a.rar") cvol1 ++ vol_items (str "a.r00") cvol2.
Definition cdisk : fs := [(str "/in/a.txt", bstr "abcde"); (str "/in/b.txt", [])].
Definition cdisk2 : fs := [(str "/in/a.txt", bstr "abcdf"); (str "/in/b.txt", [])].
Example C28_example : srr_ok csrr /\ p_skip_crc rparm = false /\ p_part rparm = [] /\
  (exists s, reconstruct rparm (ser_srr csrr) cdisk = (s, Continue) /\ s_events s = []) /\
  (exists s, reconstruct rparm (ser_srr csrr) cdisk2 = (s, Continue) /\ s_events s = [ECrcFile (str "a.txt")]) /\
  file_parts csrr = [(FHEAD 2 "a.txt" 5 0x352441C2, 3); (FHEAD 1 "a.txt" 5 0x8587D865, 2); (FHEAD 0 "b.txt" 0 0, 0)].
Proof.
  split.
  { split; [|split; [|split]].
    - unfold csrr, app_item. eauto 8.
    - ok.
    - vm_compute. repeat split; intros; discriminate.
    - ok. }
  split; [reflexivity|]. split; [reflexivity|].
  split; [eexists; split; vm_compute; reflexivity|]. split; [eexists; split; vm_compute; reflexivity|]. reflexivity.
Qed.
