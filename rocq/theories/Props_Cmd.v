(** Props_Cmd: the theorems of C66, on the files that commands leave behind. *)
From Verif Require Import Base BaseFacts Path Srr Crc Disk DiskSpec Cmd CmdSpec CmdFacts.

(** srr creates: whatever operation fails and wherever it is cut short, no part of an SRR file gets the name; without leave
    nothing happens *)
Theorem C66_create : forall yes no answer srr tmp l e f w f' w' r, tmp <> srr -> fs_get f tmp = None ->
  srr_create (srr_may yes no answer) srr tmp l e f w = (f', w', r) ->
  untouched fs_get [srr; tmp] f f' /\
  (fs_get f' srr = fs_get f srr \/ fs_get f' srr = None \/ (e = None /\ fs_get f' srr = Some (written l))) /\
  (~ allowed yes no answer (fs_get f srr) -> f' = f /\ r = Done) /\
  (allowed yes no answer (fs_get f srr) -> r = Done -> e = None /\ fs_get f' srr = Some (written l) /\ fs_get f' tmp = None).
Proof. exact srr_created. Qed.
Print Assumptions C66_create.
Theorem C66_create_works : forall yes no answer srr tmp l f w, Forall (eq Good) w -> tmp <> srr -> allowed yes no answer (fs_get f srr) ->
  exists f' w', srr_create (srr_may yes no answer) srr tmp l None f w = (f', w', Done).
Proof. exact srr_created_calm. Qed.
Print Assumptions C66_create_works.
(** a volume that is not there: the SRR file of before is deleted *)
Theorem C66_create_loses_refuted : exists srr tmp l e f f' d, tmp <> srr /\ fs_get f tmp = None /\ fs_get f srr = Some d /\
  srr_create (srr_may true false false) srr tmp l (Some e) f [] = (f', [], Raised) /\ fs_get f' srr = None.
Proof.
  exists (str "x.srr"), (str "x.tmp"), [Some (bstr "he")], (mkEnding true true), [(str "x.srr", bstr "old")]. eexists. exists (bstr "old"). split; [discriminate|]. split; [reflexivity|]. split; [reflexivity|]. split; vm_compute; reflexivity.
Qed.
Print Assumptions C66_create_loses_refuted.
(** "make sure there is no broken SRR file/temporary file left": a full disk leaves the temporary file *)
Theorem C66_create_tmp_refuted : exists srr tmp l f w f' w' d, tmp <> srr /\ fs_get f tmp = None /\
  srr_create (srr_may true false false) srr tmp l None f w = (f', w', Raised) /\ fs_get f' tmp = Some d.
Proof.
  exists (str "x.srr"), (str "x.tmp"), [Some (bstr "head")], [], [Good; Fail 2]. eexists. exists []. exists (bstr "he"). split; [discriminate|]. split; [reflexivity|]. split; vm_compute; reflexivity.
Qed.
Print Assumptions C66_create_tmp_refuted.
Example C66_create_example :
  let f := [(str "b", bstr "b"); (str "x.srr", bstr "old")] in
  (let '(f', _, r) := srr_create (srr_may false false true) (str "x.srr") (str "x.tmp") [Some (bstr "he"); None; Some (bstr "ad")] None f [] in
   r = Done /\ fs_get f' (str "x.srr") = Some (bstr "head") /\ fs_get f' (str "b") = Some (bstr "b")) /\
  srr_create (srr_may false true true) (str "x.srr") (str "x.tmp") [Some (bstr "he")] None f [Fail 0] = (f, [Fail 0], Done).
Proof. vm_compute. repeat split; reflexivity. Qed.

(** srs creates: if there is no SRS file afterwards the new one is in the temporary file, or an error was raised *)
Theorem C66_srs_create : forall yes answer srs tmp ok l f w f' w' r, tmp <> srs ->
  srs_create (srs_may yes answer) srs tmp ok l f w = (f', w', r) ->
  untouched fs_get [srs; tmp] f f' /\
  (fs_get f' srs = fs_get f srs \/ (ok = true /\ (fs_get f' srs = Some (written l) \/ (fs_get f' srs = None /\ (fs_get f' tmp = Some (written l) \/ r = Raised))))) /\
  (~ allowed yes false answer (fs_get f srs) -> f' = f /\ r = Done) /\
  (allowed yes false answer (fs_get f srs) -> r = Done -> ok = true /\ fs_get f' srs = Some (written l) /\ fs_get f' tmp = None).
Proof. exact srs_created. Qed.
Print Assumptions C66_srs_create.
Theorem C66_srs_create_works : forall yes answer srs tmp l f w, Forall (eq Good) w -> tmp <> srs -> allowed yes false answer (fs_get f srs) ->
  exists f' w', srs_create (srs_may yes answer) srs tmp true l f w = (f', w', Done).
Proof. exact srs_created_calm. Qed.
Print Assumptions C66_srs_create_works.
Example C66_srs_create_example :
  let f := [(str "x.srs", bstr "old")] in
  (let '(f', _, r) := srs_create (srs_may true false) (str "x.srs") (str "x.tmp") true [Some (bstr "he"); Some (bstr "ad")] f [] in r = Done /\ fs_get f' (str "x.srs") = Some (bstr "head")) /\
  (let '(f', _, r) := srs_create (srs_may true false) (str "x.srs") (str "x.tmp") false [Some (bstr "he")] f [] in r = Raised /\ fs_get f' (str "x.srs") = Some (bstr "old")) /\
  srs_create (srs_may false false) (str "x.srs") (str "x.tmp") true [] f [] = (f, [], Done).
Proof. vm_compute. repeat split; reflexivity. Qed.

(** srs rebuilds: only whole rebuilt files get the name; if it says it is done the CRC is the one of the SRS file; music that
    is replaced by its own rebuilt file is safe *)
Theorem C66_rebuild : forall wanted music same keep result yes answer first more f w f' w' r, Forall (fun a => a_tmp a <> result) (first :: more) ->
  srs_rebuild wanted music same keep result (srs_may yes answer) first more f w = (f', w', r) ->
  untouched fs_get (result :: map a_tmp (first :: more)) f f' /\
  (fs_get f' result = fs_get f result \/ fs_get f' result = None \/ exists a, In a (first :: more) /\ fs_get f' result = Some (written (a_parts a))) /\
  (r = Done -> exists a, In a (first :: more) /\ crc32 (written (a_parts a)) = wanted /\ fs_get f' result = Some (written (a_parts a)) /\ fs_get f' (a_tmp a) = None) /\
  (~ allowed yes false answer (fs_get f result) -> f' = f /\ r = Raised) /\
  (music = true -> same = true -> Forall (fun a => crc32 (written (a_parts a)) <> wanted) (first :: more) -> fs_get f' result = fs_get f result).
Proof. exact srs_rebuilt. Qed.
Print Assumptions C66_rebuild.
(** the first place that gives the CRC is used *)
Theorem C66_rebuild_works : forall wanted music same keep result yes answer first more a f w, Forall (eq Good) w -> allowed yes false answer (fs_get f result) ->
  Forall (fun b => a_ok b = true /\ a_tmp b <> result) (first :: more) -> find (fun b => crc32 (written (a_parts b)) =? wanted) (first :: more) = Some a ->
  exists f' w', srs_rebuild wanted music same keep result (srs_may yes answer) first more f w = (f', w', Done) /\ fs_get f' result = Some (written (a_parts a)).
Proof. exact srs_rebuilt_calm. Qed.
Print Assumptions C66_rebuild_works.
(** the first temporary file stays when another place is the right one *)
Theorem C66_rebuild_tmp_refuted : exists wanted result first more f f' w' d,
  srs_rebuild wanted false false false result (srs_may false false) first more f [] = (f', w', Done) /\ fs_get f (a_tmp first) = None /\ fs_get f' (a_tmp first) = Some d.
Proof.
  exists (crc32 (bstr "ab")), (str "s.avi"), (mkAt (str "t1") true [Some (bstr "xx")]), [mkAt (str "t2") true [Some (bstr "ab")]], []. eexists. exists [], (bstr "xx"). split; [vm_compute; reflexivity|]. split; vm_compute; reflexivity.
Qed.
Print Assumptions C66_rebuild_tmp_refuted.
(** a rebuild that fails deletes the sample that was there *)
Theorem C66_rebuild_loses_refuted : exists wanted result first f f' w' d, fs_get f result = Some d /\ crc32 d = wanted /\
  srs_rebuild wanted false false false result (srs_may true false) first [] f [] = (f', w', Raised) /\ fs_get f' result = None.
Proof.
  exists (crc32 (bstr "ab")), (str "s.avi"), (mkAt (str "t1") true [Some (bstr "xx")]), [(str "s.avi", bstr "ab")]. eexists. exists [], (bstr "ab"). split; [reflexivity|]. split; [reflexivity|]. split; vm_compute; reflexivity.
Qed.
Print Assumptions C66_rebuild_loses_refuted.
(** and a wrong one can keep the name, without -k, when the program is stopped *)
Theorem C66_rebuild_wrong_refuted : exists wanted result first f w f' w' d,
  srs_rebuild wanted false false false result (srs_may true false) first [] f w = (f', w', Crashed) /\ fs_get f' result = Some d /\ crc32 d <> wanted.
Proof.
  exists (crc32 (bstr "ab")), (str "s.avi"), (mkAt (str "t1") true [Some (bstr "xx")]), [], [Good; Good; Good; Crash 0]. eexists. exists [], (bstr "xx"). split; [vm_compute; reflexivity|]. split; [vm_compute; reflexivity|]. vm_compute. discriminate.
Qed.
Print Assumptions C66_rebuild_wrong_refuted.
Example C66_rebuild_example :
  let l := [mkAt (str "t2") true [Some (bstr "yy")]; mkAt (str "t3") true [Some (bstr "a"); Some (bstr "b")]; mkAt (str "t4") true [Some (bstr "ab")]] in
  let f := [(str "s.mp3", bstr "orig")] in
  (let '(f', _, r) := srs_rebuild (crc32 (bstr "ab")) true true false (str "s.mp3") (srs_may true false) (mkAt (str "t1") true [Some (bstr "xx")]) l f [] in
   r = Done /\ fs_get f' (str "s.mp3") = Some (bstr "ab") /\ fs_get f' (str "t2") = None /\ fs_get f' (str "t4") = None) /\
  (let '(f', _, r) := srs_rebuild 0 true true false (str "s.mp3") (srs_may true false) (mkAt (str "t1") true [Some (bstr "xx")]) l f [] in
   r = Raised /\ fs_get f' (str "s.mp3") = Some (bstr "orig")) /\
  srs_rebuild 0 true true false (str "s.mp3") (srs_may false false) (mkAt (str "t1") true [Some (bstr "xx")]) l f [] = (f, [], Raised).
Proof. vm_compute. repeat split; reflexivity. Qed.
