(** Props_Collect: the volumes an SRR file is made of (C82). *)
From Verif Require Import VolSpec.
From Verif Require Import Base Path Rar Srr Sfv SfvSpec Collect CollectSpec CollectFacts CollectEx.

(** From its first volume a set is found as far as it is there: all volumes before the first one that lacks, in order. *)
Theorem C82_from_first : forall f s n d bs old, style_ok s -> (0 < n)%nat -> N.of_nat n < vol_limit s -> first_n f s n ->
  fs_get f (vol_name s 0) = Some d -> read_all d = Ok bs -> (forall b, In b bs -> b_type b = T_RarVolume -> exists x y, b_kind b = KVolume x y) -> numbering bs old -> told s old ->
  handle_rar f (vol_name s 0) = Ok (vol_names s n).
Proof. exact rar_set. Qed.
Print Assumptions C82_from_first.
Example C82_from_first_example : style_ok s_old /\ first_n f_old s_old 2 /\ fs_get f_old (vol_name s_old 0) = Some (rar_of x01) /\
  read_all (rar_of x01) = Ok ex_blocks /\ numbering ex_blocks true /\ told s_old true /\ handle_rar f_old (vol_name s_old 0) = Ok [str "x.rar"; str "x.r00"].
Proof. exact (conj (proj1 ex_first_n) (conj (proj2 ex_first_n) (conj eq_refl (conj (proj1 ex_reads) (conj (proj2 (proj2 ex_reads)) (conj (or_introl eq_refl) ex_old)))))). Qed.
(** Whatever the file is: what is found is there, starts with the file itself and has nothing twice. *)
Theorem C82_once : forall f r l, handle_rar f r = Ok l -> NoDup l /\ (forall p, In p l -> there f p) /\ exists t, l = r :: t.
Proof. exact rar_any. Qed.
Print Assumptions C82_once.
Example C82_once_example : handle_rar f_new (str "x.part1.rar") = Ok [str "x.part1.rar"; str "x.part2.rar"; str "x.part3.rar"].
Proof. exact ex_new. Qed.
(** The search for further volumes ends. *)
Theorem C82_ends : forall f r, handle_rar f r <> Err OutOfFuel.
Proof. exact rar_ends. Qed.
Print Assumptions C82_ends.
Example C82_ends_example : handle_rar [(str "x.999", rar_of x01); (str "x.000", rar_of x01)] (str "x.000") = Ok [str "x.000"].
Proof. vm_compute. reflexivity. Qed.
(** A volume that is not the first by its name is refused; this is not so for names with .part (C82_first_refuted). *)
Theorem C82_first_partial : forall f s i, style_ok s -> i < vol_limit s -> counted_from s i -> exists e, handle_rar f (vol_name s i) = Err e.
Proof. exact first_refused. Qed.
Print Assumptions C82_first_partial.
Example C82_first_partial_example : counted_from s_old 1 /\ on_disk f_old (vol_name s_old 1) = true /\ handle_rar f_old (vol_name s_old 1) = Err ValueError.
Proof. vm_compute. auto. Qed.
(** A set can be started with its second volume: the first one is lost without an error. *)
Theorem C82_first_refuted : exists f s i l, style_ok s /\ 0 < i /\ there f (vol_name s 0) /\ handle_rar f (vol_name s i) = Ok l /\ ~ In (vol_name s 0) l.
Proof.
  exists f_new, s_new, 1, [str "x.part2.rar"; str "x.part3.rar"]. split; [vm_compute; repeat constructor; auto|]. split; [reflexivity|]. split; [vm_compute; discriminate|]. split; [exact ex_second|].
  vm_compute. intros [H|[H|[]]]; discriminate H.
Qed.
Print Assumptions C82_first_refuted.
(** An SFV file of a set: the volumes of the set in their order and once, in the folder of the SFV file. *)
Theorem C82_sfv : forall f sfile data es cs rs, fs_get f sfile = Some data -> parse_sfv_data data = Ok (es, cs, rs) ->
  forall s n, style_ok s -> (0 < n)%nat -> N.of_nat n <= vol_limit s -> sfv_of_set s n es -> handle_sfv f sfile = Ok (map (pjoin (dirname sfile)) (vol_names s n)).
Proof. exact sfv_set. Qed.
Print Assumptions C82_sfv.
Example C82_sfv_example : sfv_for f_sfv (str "d/x.SFV") (s_old, 2%nat) /\ map (pjoin (str "d")) (vol_names s_old 2) = [str "d/x.rar"; str "d/x.r00"].
Proof. exact (conj ex_sfv_for eq_refl). Qed.
(** Any SFV file: it is empty if and only if nothing can be read from it, no volume is lost and nothing else is taken. *)
Theorem C82_sfv_any : forall f sfile data es cs rs, fs_get f sfile = Some data -> parse_sfv_data data = Ok (es, cs, rs) ->
  (handle_sfv f sfile = Err EmptySfv <-> es = []) /\
  forall l, handle_sfv f sfile = Ok l ->
    (forall e, In e es -> rar_ending (e_name e) -> exists n, same_text (e_name e) n /\ In (pjoin (dirname sfile) n) l) /\
    (forall p, In p l -> exists e, In e es /\ rar_ending (e_name e) /\ p = pjoin (dirname sfile) (e_name e)).
Proof. intros f sfile data es cs rs D P. exact (conj (sfv_empty f sfile data es cs rs D P) (sfv_any f sfile data es cs rs D P)). Qed.
Print Assumptions C82_sfv_any.
Example C82_sfv_any_example : handle_sfv f_sfv (str "a.sfv") = Ok [str "x.rar"; str "x.r00"] /\ handle_sfv [(str "a.sfv", bstr "; nothing")] (str "a.sfv") = Err EmptySfv.
Proof. vm_compute. auto. Qed.
(** Sets of several SFV files follow each other in the order in which the files are given. *)
Theorem C82_sets : forall f infiles sets, Forall2 (sfv_for f) infiles sets ->
  collect f infiles = Ok (concat (map (fun x => map (pjoin (dirname (fst x))) (vol_names (fst (snd x)) (snd (snd x)))) (combine infiles sets))).
Proof. exact collect_sets. Qed.
Print Assumptions C82_sets.
Example C82_sets_example : Forall2 (sfv_for f_sfv) [str "d/x.SFV"] [(s_old, 2%nat)] /\ collect f_sfv [str "d/x.SFV"; str "a.sfv"] = Ok [str "d/x.rar"; str "d/x.r00"; str "x.rar"; str "x.r00"].
Proof. exact (conj (Forall2_cons _ _ ex_sfv_for (Forall2_nil _)) ex_collect). Qed.
(** A volume that is in an SFV file with two sums is taken twice. *)
Theorem C82_twice_refuted : exists f sfile l, handle_sfv f sfile = Ok l /\ ~ NoDup l.
Proof.
  exists [(str "a.sfv", d_twice)], (str "a.sfv"), [str "x.rar"; str "x.rar"]. split; [exact ex_twice|]. intros H. inversion H as [|x l I N]. apply I. now left.
Qed.
Print Assumptions C82_twice_refuted.
(** Without its second volume the rest of a set is lost without an error. *)
Theorem C82_gap_refuted : exists f s l, style_ok s /\ there f (vol_name s 0) /\ there f (vol_name s 2) /\ handle_rar f (vol_name s 0) = Ok l /\ ~ In (vol_name s 2) l.
Proof.
  exists f_gap, s_old, [str "x.rar"]. split; [vm_compute; repeat constructor; auto|]. split; [vm_compute; discriminate|]. split; [vm_compute; discriminate|]. split; [exact ex_gap|]. vm_compute. intros [H|[]]; discriminate H.
Qed.
Print Assumptions C82_gap_refuted.
(** A set that is there with names in capitals is lost but for its first volume. *)
Theorem C82_case_refuted : exists f a b l, there f a /\ there f b /\ same_text a (str "x.rar") /\ same_text b (str "x.r00") /\ handle_rar f a = Ok l /\ ~ In b l.
Proof.
  exists f_case, (str "X.RAR"), (str "X.R00"), [str "X.RAR"]. split; [vm_compute; discriminate|]. split; [vm_compute; discriminate|]. split; [apply ex_same|]. split; [apply ex_same|]. split; [exact ex_case|].
  vm_compute. intros [H|[]]; discriminate H.
Qed.
Print Assumptions C82_case_refuted.
(** A RAR file that cannot be read gives an error that is not told as one of reading. *)
Theorem C82_error_refuted : exists f r d, fs_get f r = Some d /\ read_all d = Err EnvironmentError /\ handle_rar f r = Err AttributeError.
Proof. exact (ex_intro _ _ (ex_intro _ _ (ex_intro _ d_short (conj (eq_refl : fs_get [(str "x.rar", d_short)] (str "x.rar") = Some d_short) ex_short)))). Qed.
Print Assumptions C82_error_refuted.
