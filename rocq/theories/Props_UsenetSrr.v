(** Props_UsenetSrr: SRR files of posted files (C83). *)
From Coq Require Import Permutation.
From Verif Require Import VolSpec.
From Verif Require Import Base Rar Srr SrrSpec Sfv SfvSpec CollectSpec CollectEx UsenetSrr UsenetSrrSpec UsenetSrrFacts UsenetSrrEx.

(** An SRR file of posted files is the SRR file of the same files on disk: for each name that is collected a posted file
    with this name but for capitals, in order, with the files to store and the SFV files that can be read. If any volume
    has an end block the last segments of all volumes are there. *)
Theorem C83_content : forall app infiles allfiles stores b d st, create_srr_fh app infiles allfiles stores = (Ok b, d, st) -> allfiles <> [] -> Forall honest (stores ++ sfvs_of infiles) ->
  exists names us vols, collect_fh allfiles infiles = Ok names /\ Forall2 (called allfiles) names us /\ Forall2 vol_of us vols /\
    create_srr app (readable (stores ++ sfvs_of infiles)) vols true [] = Ok b /\ ((exists u, In u us /\ has_end u) -> Forall (fun u => u_last u = true) us).
Proof. exact fh_content. Qed.
Print Assumptions C83_content.
Example C83_content_example : create_srr (str "a") [(str "x.sfv", d_set)] x_vols true [] = Ok x_b /\ usenet_srr (str "a") [x_sfv] x_files [] = Ok (Some (false, x_b)) /\ (100 <? lenN x_b) = true.
Proof. exact ex_srr. Qed.
(** From the SFV files of sets whose volumes are all posted the SRR file is made, with the volumes in the order of the
    sets; other capitals are found if one of the names has none. *)
Theorem C83_made : forall app sfvs sets allfiles stores us vols b, Forall2 sfv_posted sfvs sets -> sfvs <> [] -> NoDup (map fst allfiles) -> apart (set_names sets) ->
  Forall2 (picks allfiles) (set_names sets) us -> Forall2 vol_of us vols -> Forall (fun u => u_last u = true) us -> Forall honest (stores ++ sfvs) ->
  create_srr app (readable (stores ++ sfvs)) vols true [] = Ok b -> usenet_srr app sfvs allfiles stores = Ok (Some (false, b)).
Proof. exact posted_made. Qed.
Print Assumptions C83_made.
Example C83_made_example : Forall2 sfv_posted [x_sfv] [(s_old, 2%nat)] /\ Forall2 (picks x_files) (set_names [(s_old, 2%nat)]) x_us /\ Forall2 vol_of x_us x_vols.
Proof. exact (conj (Forall2_cons _ _ ex_posted (Forall2_nil _)) (conj ex_picks ex_vols)). Qed.
(** Any posted SFV file: no volume is lost and nothing else is taken. *)
Theorem C83_sfv : forall u data es cs rs l, u_data u = Some data -> parse_sfv_data data = Ok (es, cs, rs) -> handle_sfv_fh u = Ok l ->
  (forall e, In e es -> rar_ending (e_name e) -> exists n, same_text (e_name e) n /\ In n l) /\ (forall n, In n l -> exists e, In e es /\ rar_ending (e_name e) /\ n = e_name e).
Proof. exact sfv_fh_any. Qed.
Print Assumptions C83_sfv.
Example C83_sfv_example : handle_sfv_fh x_sfv = Ok [str "x.rar"; str "x.r00"].
Proof. vm_compute. reflexivity. Qed.
(** A volume for which no posted file fits is told as not found. *)
Theorem C83_missing : forall app infiles allfiles stores names r h, infiles <> [] -> allfiles <> [] -> srr_header_bytes app = Ok h -> NoDup (map fst allfiles) -> collect_fh allfiles infiles = Ok names -> apart names ->
  In r names -> (forall k, In k (map fst allfiles) -> ~ fits r k) -> fst (fst (create_srr_fh app infiles allfiles stores)) = Err FileNotFound.
Proof. exact fh_missing. Qed.
Print Assumptions C83_missing.
Example C83_missing_example : fst (fst (create_srr_fh (str "a") [ISfv x_sfv] [xu "x.rar" (rar_of x01)] [])) = Err FileNotFound.
Proof. vm_compute. reflexivity. Qed.
(** A first volume that is not among the posted files is an error. *)
Theorem C83_unknown : forall app infiles allfiles stores n b, In (IRar n) infiles -> ~ In n (map fst allfiles) -> fst (fst (create_srr_fh app infiles allfiles stores)) <> Ok b.
Proof. exact fh_unknown. Qed.
Print Assumptions C83_unknown.
Example C83_unknown_example : fst (fst (create_srr_fh (str "a") [ISfv x_sfv; IRar (str "y.rar")] x_files [])) = Err KeyError.
Proof. vm_compute. reflexivity. Qed.
(** Without an SFV file of use the SRR file is made of the one set that is posted, whatever else is posted. *)
Theorem C83_no_sfv_partial : forall app sfvs allfiles stores s n others us vols b d0 bs old, useless sfvs -> NoDup (map fst allfiles) -> (forall k u, In (k, u) allfiles -> u_name u = k) ->
  style_ok s -> (1 < n)%nat -> N.of_nat n < vol_limit s -> (forall i, ~ In 47 (vol_name s i)) -> apart (vol_names s n) ->
  Permutation (map fst allfiles) (vol_names s n ++ others) -> Forall (fun o => ~ rar_ending o) others ->
  Forall2 (fun r u => In (r, u) allfiles) (vol_names s n) us -> Forall2 vol_of us vols -> Forall (fun u => u_last u = true) us -> Forall honest stores ->
  nth_error vols 0 = Some (vol_name s 0, d0) -> read_all d0 = Ok bs -> (forall b, In b bs -> b_type b = T_RarVolume -> exists x y, b_kind b = KVolume x y) -> numbering bs old -> told s old ->
  create_srr app (readable stores) vols true [] = Ok b -> usenet_srr app sfvs allfiles stores = Ok (Some (true, b)).
Proof. exact no_sfv. Qed.
Print Assumptions C83_no_sfv_partial.
Example C83_no_sfv_example : match usenet_srr (str "a") [] y_files [snd (xu "x.nfo" (bstr "hi"))] with Ok (Some (no_sfv, b)) =>
  no_sfv = true /\ create_srr (str "a") [(str "x.nfo", bstr "hi")] [(str "x.rar", rar_of x01); (str "x.r00", rar_of x01)] true [] = Ok b | _ => False end.
Proof. exact ex_no_sfv. Qed.
(** A file is not found if both names have capitals, although they differ in nothing else. *)
Theorem C83_case_refuted : exists sfvs allfiles k u r, Forall honest sfvs /\ In (k, u) allfiles /\ collect_fh allfiles (map ISfv sfvs) = Ok [r] /\ lower k = lower r /\ usenet_srr (str "a") sfvs allfiles [] = Err FileNotFound.
Proof.
  exists [snd (xu "x.sfv" d_case)], [xu "a.RAR" (rar_of x01)], (str "a.RAR"), (snd (xu "a.RAR" (rar_of x01))), (str "A.rar"). split; [|split; [now left|split; [vm_compute; reflexivity|split; [reflexivity|exact ex_case]]]].
  exact ex_honest.
Qed.
Print Assumptions C83_case_refuted.
(** A file to store that cannot be read is left out without an error. *)
Theorem C83_skip_refuted : exists sfvs allfiles u b, u_data u = None /\ usenet_srr (str "a") sfvs allfiles [u] = Ok (Some (false, b)) /\ usenet_srr (str "a") sfvs allfiles [] = Ok (Some (false, b)).
Proof. exact (ex_intro _ _ (ex_intro _ _ (ex_intro _ x_broken (ex_intro _ _ (conj eq_refl (conj ex_skip (proj1 (proj2 ex_srr)))))))). Qed.
Print Assumptions C83_skip_refuted.
(** If the told size of a file to store is not that of its data the SRR file cannot be read. *)
Theorem C83_size_refuted : exists sfvs allfiles u b, u_data u <> None /\ usenet_srr (str "a") sfvs allfiles [u] = Ok (Some (false, b)) /\ read_all b = Err EnvironmentError.
Proof. exists [x_sfv], x_files, x_long. pose proof ex_size as H. destruct (usenet_srr (str "a") [x_sfv] x_files [x_long]) as [[[f b]|]|] eqn:E; [|destruct H|destruct H]. exists b. split; [discriminate|]. split; [|exact H]. vm_compute in E. injection E as <- E. now rewrite <- E. Qed.
Print Assumptions C83_size_refuted.
(** Without end blocks volumes are taken whose last segment is not there. *)
Theorem C83_end_refuted : exists sfvs allfiles b, (forall k u, In (k, u) allfiles -> rar_ending k -> u_last u = false) /\ usenet_srr (str "a") sfvs allfiles [] = Ok (Some (false, b)).
Proof. exists [x_sfv], z_files, x_b. exact (conj ex_not_last ex_last). Qed.
Print Assumptions C83_end_refuted.
(** In the second attempt volumes are taken twice that had other capitals in the SFV file. *)
Theorem C83_twice_refuted : exists sfvs allfiles b, NoDup (map fst allfiles) /\ usenet_srr (str "a") sfvs allfiles [] = Ok (Some (true, b)) /\
  create_srr (str "a") [(str "x.sfv", d_more)] [(str "a.rar", rar_of x01); (str "a.r00", rar_of x01); (str "a.rar", rar_of x01); (str "a.r00", rar_of x01)] true [] = Ok b.
Proof.
  exists [t_sfv], t_files. pose proof ex_twice as H. destruct (usenet_srr (str "a") [t_sfv] t_files []) as [[[f b]|]|] eqn:E; [|destruct H|destruct H]. destruct H as [-> H]. exists b. split; [|split; [reflexivity|exact H]]. exact ex_t_nodup.
Qed.
Print Assumptions C83_twice_refuted.
