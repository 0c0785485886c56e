(** C78: SRR files for vobsubs. *)
From Verif Require Import VolName Base BaseFacts Path Wanted DirsSpec Subs SubsSpec SubsFacts SubsEx.

(** There is one SRR file for each set of the SFV file that can be extracted; in it are those for the sets in the set. *)
Theorem C78_archives_partial : forall enc dir f world firsts diz srrs lang after, dir_path dir -> ~ In 47 f -> NoDup (map fst world) -> (forall n k, In (n, k) world -> tidy k) ->
  (forall fr, In fr firsts -> exists s, srr_for fr s) -> different_names firsts ->
  create_srr_for_subs enc (dir ++ 47 :: f) world firsts diz = (srrs, lang, after) ->
  (forall p fr st, In (p, Srr fr st) srrs -> srr_at (dir ++ 47 :: f) firsts fr p /\ In fr firsts /\ exists k, In (fr, k) world /\ extractable k /\ same_archives k (Srr fr st)) /\
  (forall fr k, In fr firsts -> In (fr, k) world -> extractable k -> exists p st, In (p, Srr fr st) srrs).
Proof. exact archives_spec. Qed.
Print Assumptions C78_archives_partial.
(** languages.diz is extended by the languages of each .idx file in these sets. *)
Theorem C78_languages_partial : forall enc srr_out world firsts diz srrs lang after, (forall t, t <> [] -> enc t <> []) ->
  NoDup (map fst world) -> NoDup firsts -> (forall n k, In (n, k) world -> tidy k) ->
  create_srr_for_subs enc srr_out world firsts diz = (srrs, lang, after) ->
  exists d, all_languages enc (idx_from world firsts) d /\
    match after with
    | None => diz = None /\ forall path name data, ~ idx_from world firsts path name data
    | Some a => a = match diz with Some o => o | None => [] end ++ d
    end /\ (srrs <> [] -> lang = after) /\ (srrs = [] -> lang = None).
Proof. exact languages_spec. Qed.
Print Assumptions C78_languages_partial.
Example C78_ex : NoDup (map fst disk) /\ (forall n k, In (n, k) disk -> tidy k) /\ (forall t, t <> [] -> ascii t <> []) /\
  (forall fr, In fr (map fst disk) -> exists s, srr_for fr s) /\ different_names (map fst disk) /\ str "w/s.srr" = str "w" ++ 47 :: str "s.srr" /\
  create_srr_for_subs ascii (str "w/s.srr") disk (map fst disk) None =
  ([(str "w/s.srr", Srr (str "Subs/s.rar") [(str "a.srr", Srr (str "a.rar") [])]); (str "w/t.srr", Srr (str "Subs/t.rar") [])],
   Some (bstr "# a.IDX" ++ [x0a] ++ bstr "id: en" ++ [x0a] ++ bstr "id: fr" ++ [x0a] ++ bstr "# b.idx" ++ [x0a]),
   Some (bstr "# a.IDX" ++ [x0a] ++ bstr "id: en" ++ [x0a] ++ bstr "id: fr" ++ [x0a] ++ bstr "# b.idx" ++ [x0a])).
Proof.
  split; [exact disk_names|]. split; [exact disk_tidy|]. split; [exact ascii_some|]. split; [exact disk_srr|]. split; [exact disk_different|]. split; [reflexivity|vm_compute; reflexivity].
Qed.

(** A set next to one with the same name but for the last four letters has no SRR file. *)
Theorem C78_archives_refuted : exists n st r, create_srr_for_subs ascii (str "s.srr") [(str "s.rar", n)] [str "s.rar"] None = ([(str "s.srr", Srr (str "s.rar") st)], Some (bstr "# b.idx" ++ [x0a]), Some (bstr "# b.idx" ++ [x0a])) /\
  at_archive n [str "x.rar"] r /\ ~ in_tree (Srr (str "s.rar") st) [str "x.rar"].
Proof.
  eexists two, _, _. split; [vm_compute; reflexivity|]. split.
  - unfold two. eapply aa_in; [vm_compute; now left|now left|constructor].
  - intros H. inversion H as [|? ? p g st' path I _]; subst. destruct I as [I|[I|[]]]; vm_compute in I; discriminate I.
Qed.
Print Assumptions C78_archives_refuted.
(** The languages of the first SFV file are in the SRR file of the second one as well. *)
Theorem C78_languages_refuted : exists s1 l1 s2 d2,
  all_subs ascii disk [(str "w/s.srr", [str "Subs/s.rar"]); (str "w/t.srr", [str "Subs/t.rar"])] None = [(s1, l1); (s2, Some d2)] /\
  l1 = Some d2 /\ ~ all_languages ascii (idx_from disk [str "Subs/t.rar"]) d2.
Proof.
  eexists _, _, _, _. split; [vm_compute; reflexivity|]. split; [reflexivity|]. intros (l & ss & _ & H & F & E).
  destruct F as [|[[path name] data] s l ss _ _]; [discriminate E|]. destruct (proj1 (H path name data) (or_introl eq_refl)) as (fr & k & p & _ & [<-|[]] & I & r & k' & A & J & M).
  destruct I as [I|[I|[I|[]]]]; inversion I; subst k. inversion A; subst.
  - destruct J as [J|[]]. inversion J; subst. apply idx_spec in M. vm_compute in M. discriminate M.
  - match goal with F : In _ (first_rars _) |- _ => vm_compute in F; destruct F end.
Qed.
Print Assumptions C78_languages_refuted.

(** The first volumes: those in the SFV file, or else the archive with the name of the SFV file. *)
Theorem C78_start : forall isfile entries (sfv base e : text), sfv = base ++ e -> length e = 4%nat -> get_start_rar_files entries [sfv] = [] ->
  (exists c, start_rars isfile entries sfv = [c] /\ first_that isfile (map (app base) START) c) \/
  (start_rars isfile entries sfv = [] /\ forall x, In x START -> isfile (base ++ x) = false).
Proof. exact start_spec. Qed.
Print Assumptions C78_start.
Theorem C78_listed : forall isfile entries sfv, get_start_rar_files entries [sfv] <> [] -> start_rars isfile entries sfv = get_start_rar_files entries [sfv].
Proof. exact start_listed. Qed.
Print Assumptions C78_listed.
Example C78_start_ex : get_start_rar_files (fun _ => []) [str "S/a.sfv"] = [] /\ start_rars (fun n => orb (teqb n (str "S/a.001")) (teqb n (str "S/a.part1.rar"))) (fun _ => []) (str "S/a.sfv") = [str "S/a.part1.rar"] /\ start_rars (fun _ => true) (fun _ => [str "b.rar"; str "b.r00"; str "c.rar"]) (str "S/a.sfv") = [str "S/b.rar"; str "S/c.rar"].
Proof. repeat split; vm_compute; reflexivity. Qed.
