(** C88: the files of an archive on the disk, by name, hint or size. *)
From Verif Require Import Base Path PathSpec Verify VerifySpec Locate LocateSpec LocateFacts LocateEx.

(** the file at the place of its name or its last hint is taken if the size is right or not known; without one the first file
    below the folder with the extension and the size, if renamed files are searched; else an error tells what is wrong *)
Theorem C88_partial : forall disk walk hints auto folder n own p size e r, folder_ok folder -> target hints n p ->
  (auto = true -> rar_path n own /\ ext_of own e /\ literal e /\ walk_ok disk walk) ->
  locate_path disk walk hints auto folder n size = r <-> outcome disk walk auto (in_folder folder p) e size r.
Proof. exact locate_thm. Qed.
Print Assumptions C88_partial.
Example C88_partial_ex : folder_ok (str "/in") /\ target hints1 (str "d\a.avi") (str "new.avi") /\ rar_path (str "d\a.avi") (str "d/a.avi") /\
  ext_of (str "d/a.avi") (str ".avi") /\ literal (str ".avi") /\ walk_ok disk1 walk1 /\
  locate_path disk1 walk1 hints1 false (str "/in") (str "d\a.avi") 3 = Ok (str "/in/new.avi") /\
  locate_path disk1 walk1 hints1 true (str "/in") (str "d\a.avi") 2 = Err InvalidFileSize /\
  locate_path disk1 walk1 [] true (str "/in") (str "d\a.avi") 2 = Ok (str "/in/d/c.avi") /\
  locate_path disk1 walk1 [] false (str "/in") (str "d\a.avi") 2 = Err Base.FileNotFound.
Proof. exact ex_locate. Qed.

(** the option for hints: pairs without colons and semicolons, and nothing else is accepted *)
Theorem C88_hints : forall t l, hints_of t = Some l <-> t = hint_text l /\ Forall (fun x => clean (fst x) /\ clean (snd x)) l.
Proof. exact hints_thm. Qed.
Print Assumptions C88_hints.
Example C88_hints_ex : hints_of (str "d\a.avi:old.avi;e:f;d\a.avi:new.avi") = Some hints1.
Proof. exact ex_hints. Qed.

(** the last hint for a name counts *)
Theorem C88_last : forall l n h, get_hint l n = Some h <-> hinted l n h.
Proof. exact get_thm. Qed.
Print Assumptions C88_last.
Example C88_last_ex : hinted hints1 (str "d\a.avi") (str "new.avi").
Proof. exact ex_hinted. Qed.

(** every renamed file can be told: false, a path with a drive letter is no hint *)
Theorem C88_drive_refuted : exists n h, forall t, hints_of t <> Some [(n, h)].
Proof. exact (ex_intro _ (str "a") (ex_intro _ (str "C:\b") ex_colon)). Qed.
Print Assumptions C88_drive_refuted.

(** different files are found at different places: false, the search takes one file for both *)
Theorem C88_twice_refuted : exists disk walk folder n m size p, walk_ok disk walk /\ n <> m /\
  locate_path disk walk [] true folder n size = Ok p /\ locate_path disk walk [] true folder m size = Ok p.
Proof.
  exact (ex_intro _ disk1 (ex_intro _ walk1 (ex_intro _ (str "/in") (ex_intro _ (str "d\a.avi") (ex_intro _ (str "d\q.avi") (ex_intro _ 3 (ex_intro _ (str "/in/new.avi")
    (conj walk1_ok (conj (fun H : str "d\a.avi" = str "d\q.avi" => eq_ind (nth 2 (str "d\a.avi") 0) (fun x => if x =? 97 then True else False) I _ (f_equal (fun t => nth 2 t 0) H)) ex_twice))))))))).
Qed.
Print Assumptions C88_twice_refuted.

(** a renamed file of which the SRR file does not know the size is found: false *)
Theorem C88_unknown_refuted : exists disk walk folder n size, walk_ok disk walk /\ unknown size /\
  (exists root names fn a, In (root, names) walk /\ In fn names /\ fn = a ++ str ".avi" /\ ext_of n (str ".avi")) /\
  locate_path disk walk [] true folder n size = Err Base.FileNotFound.
Proof.
  exact (ex_intro _ disk1 (ex_intro _ walk1 (ex_intro _ (str "/in") (ex_intro _ (str "d\a.avi") (ex_intro _ 0xFFFFFFFF
    (conj walk1_ok (conj (or_introl eq_refl) (conj (ex_intro _ (str "/in") (ex_intro _ [str "new.avi"] (ex_intro _ (str "new.avi") (ex_intro _ (str "new")
      (conj (or_introl eq_refl) (conj (or_introl eq_refl) (conj eq_refl (VerifyFacts.extension_ok (str "d\a.avi"))))))))) ex_unknown)))))))).
Qed.
Print Assumptions C88_unknown_refuted.

(** a file of the right size and extension is found when there is one: false when the file at the place has another size *)
Theorem C88_wrong_refuted : exists disk walk folder n size p d, walk_ok disk walk /\ disk p = Some (EFile d) /\ lenN d = size /\
  ext_of n (str ".avi") /\ ext_of p (str ".avi") /\ locate_path disk walk [] true folder n size = Err InvalidFileSize.
Proof.
  exact (ex_intro _ disk1 (ex_intro _ walk1 (ex_intro _ (str "/in") (ex_intro _ (str "new.avi") (ex_intro _ 2 (ex_intro _ (str "/in/d/c.avi") (ex_intro _ (bstr "12")
    (conj walk1_ok (conj eq_refl (conj eq_refl (conj (VerifyFacts.extension_ok (str "new.avi")) (conj (VerifyFacts.extension_ok (str "/in/d/c.avi")) ex_wrong)))))))))))).
Qed.
Print Assumptions C88_wrong_refuted.

(** the extension of a name is a pattern: a renamed file with brackets in its extension is not found *)
Theorem C88_pattern_refuted : exists disk walk folder n size fn d, disk (in_folder folder fn) = Some (EFile d) /\ lenN d = size /\ In (folder, [fn]) walk /\
  ext_of n (str ".[x]") /\ ext_of fn (str ".[x]") /\ locate_path disk walk [] true folder n size = Err Base.FileNotFound.
Proof.
  exact (ex_intro _ (disk_of [(str "/in/b.[x]", bstr "abc")]) (ex_intro _ [(str "/in", [str "b.[x]"])] (ex_intro _ (str "/in") (ex_intro _ (str "a.[x]") (ex_intro _ 3 (ex_intro _ (str "b.[x]") (ex_intro _ (bstr "abc")
    (conj eq_refl (conj eq_refl (conj (or_introl eq_refl) (conj (VerifyFacts.extension_ok (str "a.[x]")) (conj (VerifyFacts.extension_ok (str "b.[x]")) ex_pattern)))))))))))).
Qed.
Print Assumptions C88_pattern_refuted.
