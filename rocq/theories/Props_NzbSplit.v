(** C79: splitting NZB files. *)
From Verif Require Import Base BaseFacts Path NzbSplit NzbSplitSpec NzbSplitFacts NzbSplitEx.

(** What is in the output folder in the end: the files of each release are added to its NZB file; but the one of the last release has only those at the end of the list. *)
Theorem C79_content_partial : forall A subject parse_name grab_base_name relname substring out fs (d : disk A), let rel := release_of A subject parse_name grab_base_name relname substring in
  tagged rel fs <> [] -> d (nzb_of out []) = None -> (forall x, In x (tagged rel fs) -> fst x <> [] /\ d (nzb_of out (fst x)) <> Some None) ->
  exists before l run d', last_run (tagged rel fs) before l run /\ nzb_split A subject parse_name grab_base_name relname substring out fs d = Ok d' /\
    d' (nzb_of out l) = Some (Some run) /\
    (forall x, In x before -> fst x <> l -> d' (nzb_of out (fst x)) = Some (Some (match d (nzb_of out (fst x)) with Some (Some old) => old | _ => [] end ++ files_of (fst x) before))) /\
    (forall q, (forall x, In x (tagged rel fs) -> q <> nzb_of out (fst x)) -> d' q = d q).
Proof. exact split_spec. Qed.
Print Assumptions C79_content_partial.
(** If the files of a release are together and nothing is there before, there is an NZB file with the files of each release. *)
Theorem C79_together_partial : forall A subject parse_name grab_base_name relname substring out fs (d : disk A), let rel := release_of A subject parse_name grab_base_name relname substring in
  tagged rel fs <> [] -> d (nzb_of out []) = None -> (forall x, In x (tagged rel fs) -> fst x <> [] /\ d (nzb_of out (fst x)) = None) -> together (tagged rel fs) ->
  exists d', nzb_split A subject parse_name grab_base_name relname substring out fs d = Ok d' /\
    (forall x, In x (tagged rel fs) -> d' (nzb_of out (fst x)) = Some (Some (files_of (fst x) (tagged rel fs)))) /\
    (forall q, (forall x, In x (tagged rel fs) -> q <> nzb_of out (fst x)) -> d' q = d q).
Proof. exact together_spec. Qed.
Print Assumptions C79_together_partial.
Example C79_ex : tagged rel_of [(str "a", 1); (str "a", 2); (str "?b:", 3)] = [(str "a", (str "a", 1)); (str "a", (str "a", 2)); (str "b", (str "?b:", 3))] /\
  together [(str "a", (str "a", 1)); (str "a", (str "a", 2)); (str "b", (str "?b:", 3))] /\
  exists d, run [(str "a", 1); (str "a", 2); (str "?b:", 3)] none = Ok d /\ d (str "o/a.nzb") = Some (Some [(str "a", 1); (str "a", 2)]) /\ d (str "o/b.nzb") = Some (Some [(str "?b:", 3)]).
Proof.
  split; [vm_compute; reflexivity|]. split.
  - intros a x b y c E X z Z. destruct b as [|u [|v b]]; [destruct Z| |].
    + destruct a as [|w a]; [injection E as E1 _ E3 _; subst x y; vm_compute in X; discriminate X|]. apply (f_equal (@length _)) in E. cbn in E. rewrite app_length in E. cbn in E. lia.
    + apply (f_equal (@length _)) in E. rewrite !app_length in E. cbn in E. rewrite app_length in E. cbn in E. lia.
  - eexists. split; [reflexivity|]. split; vm_compute; reflexivity.
Qed.

(** Files are lost if those of the last release are not together, *)
Theorem C79_apart_refuted : exists d, run [(str "a", 1); (str "b", 2); (str "a", 3)] none = Ok d /\ d (str "o/a.nzb") = Some (Some [(str "a", 3)]).
Proof. eexists. split; [reflexivity|vm_compute; reflexivity]. Qed.
Print Assumptions C79_apart_refuted.
(** if there is an NZB file of the last release already, although files are added to that of another release, *)
Theorem C79_old_refuted : exists d0 d, d0 (str "o/a.nzb") = Some (Some [(str "a", 1)]) /\ d0 (str "o/b.nzb") = Some (Some [(str "b", 1)]) /\
  run [(str "a", 2); (str "b", 2)] d0 = Ok d /\ d (str "o/a.nzb") = Some (Some [(str "a", 1); (str "a", 2)]) /\ d (str "o/b.nzb") = Some (Some [(str "b", 2)]).
Proof. exists (upd item (upd item none (str "o/a.nzb") (Some [(str "a", 1)])) (str "o/b.nzb") (Some [(str "b", 1)])). eexists. repeat (split; [vm_compute; reflexivity|]). vm_compute; reflexivity. Qed.
Print Assumptions C79_old_refuted.
(** or if nothing is left of the name. *)
Theorem C79_name_refuted : exists d, run [(str "??", 1); (str "a", 2)] none = Ok d /\ forall q l, d q = Some (Some l) -> ~ In (str "??", 1) l.
Proof.
  exists (upd item none (str "o/a.nzb") (Some [(str "a", 2)])). split; [vm_compute; reflexivity|]. intros q l H. unfold upd, none in H.
  destruct (teqb q (str "o/a.nzb")); [|discriminate H]. injection H as <-. intros [X|[]]. vm_compute in X. discriminate X.
Qed.
Print Assumptions C79_name_refuted.
(** An NZB file without files leaves an empty file, and every later run fails. *)
Theorem C79_again_refuted : exists d, run [] none = Ok d /\ forall name n fs, rel_of (name, n) <> None -> rel_of (name, n) <> Some [] -> run ((name, n) :: fs) d = Err ValueError.
Proof.
  exists (upd item none (str "o/.nzb") None). split; [vm_compute; reflexivity|]. intros name n fs H1 H2. unfold run, nzb_split. cbn [split_loop]. change (release_of item fst (fun s => s) Some (fun _ => None) false) with rel_of.
  destruct (rel_of (name, n)) as [r|]; [|contradiction]. destruct r as [|c r]; [contradiction|]. reflexivity.
Qed.
Print Assumptions C79_again_refuted.

(** The names: characters that cannot be in the name of a file are underscores, and there are none at both ends. *)
Theorem C79_clean : forall base, clean_name base (rel_name base).
Proof. exact rel_name_spec. Qed.
Print Assumptions C79_clean.
Example C79_clean_ex : rel_name (str "_?a:b_c*_") = str "a_b_c".
Proof. vm_compute. reflexivity. Qed.
(** The longest word of the subject without the name of the file *)
Theorem C79_longest : forall s fn w, longest_name s fn = w ->
  (w = [] \/ (word s w /\ ~ inside fn w)) /\ forall v, word s v -> ~ inside fn v -> (length v <= length w)%nat.
Proof. exact longest_spec. Qed.
Print Assumptions C79_longest.
Example C79_longest_ex : longest_name (str "[12345] <Some.Rel-GRP>  file.name.is.long.rar (1/3)") (str "file.name.is.long.rar") = str "Some.Rel-GRP".
Proof. vm_compute. reflexivity. Qed.
(** A file has no release just when it has no name or no base name can be told. Its release is the cleaned name that a
    known form of the subject gives, if there is a hyphen near its end and --substring is not given; else a longest word
    of the subject, which only replaces the base name when longer if the subject has no known form. *)
Theorem C79_release : forall A subject parse_name grab_base_name relname substring (f : A),
  let rel := release_of A subject parse_name grab_base_name relname substring in let fn := parse_name (subject f) in
  (rel f = None <-> fn = [] \/ grab_base_name fn = None) /\
  forall r, rel f = Some r -> exists base x, grab_base_name fn = Some base /\ clean_name x r /\ chosen (subject f) fn base (relname (subject f)) substring x.
Proof. exact release_spec. Qed.
Print Assumptions C79_release.
Example C79_release_ex : forall sub, release_of text (fun s => s) (fun _ => str "f.rar") (fun _ => Some (str "f")) (fun _ => Some (str "Rel-X")) sub (str "(Some.Longer) f.rar Rel-X") = Some (str (if sub then "(Some.Longer)" else "Rel-X")).
Proof. intros []; vm_compute; reflexivity. Qed.
