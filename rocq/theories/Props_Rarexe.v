(** Props_Rarexe: application names (C43), executables (C47) and thread counts (C48, C50). *)
From Coq Require Import Sorted Permutation.
From Verif Require Import Base Rar Srr Rarexe RarexeSpec RarexeFacts.

(** ** C43 *)
(** An ASCII name that is accepted never makes creating an SRR fail. *)
Theorem C43_partial : forall name name' stores vols compressed osos,
  change_name name = Ok name' -> Forall (fun c => c < 128) name -> creatable stores vols compressed osos ->
  exists b, create_srr name' stores vols compressed osos = Ok b.
Proof. exact name_ascii. Qed.
Print Assumptions C43_partial.
(** which names work: those that take at most 65526 bytes *)
Theorem C43_exact_partial : forall name stores vols compressed osos, creatable stores vols compressed osos ->
  ((exists b, create_srr name stores vols compressed osos = Ok b) <-> Forall scalar name /\ utf8_size name <= 65526).
Proof. exact name_exact. Qed.
Print Assumptions C43_exact_partial.
(** Other accepted names always fail: those with a lone surrogate, and some well formed long ones. *)
Theorem C43_surrogate_refuted : exists name, change_name name = Ok name /\
  forall stores vols compressed osos, exists e, create_srr name stores vols compressed osos = Err e.
Proof. exact name_surrogate. Qed.
Print Assumptions C43_surrogate_refuted.
Theorem C43_refuted : exists name, Forall scalar name /\ change_name name = Ok name /\
  forall stores vols compressed osos, exists e, create_srr name stores vols compressed osos = Err e.
Proof. exact name_long. Qed.
Print Assumptions C43_refuted.
Example C43_example : creatable [(str "a.nfo", bstr "hi")] [] false [] /\ change_name (str "pyReScene 0.7") = Ok (str "pyReScene 0.7").
Proof. exact ex_creatable. Qed.

(** ** C47 *)
(** Without an executable that worked before: each executable of the folder once, in the documented order. *)
Theorem C47_partial : forall files es date, exe_files files es ->
  Permutation (get_exes (load_exes files) None date) es /\ good_order date (get_exes (load_exes files) None date).
Proof. exact exes_order. Qed.
Print Assumptions C47_partial.
(** With one it is tried first, before that same list, which holds it as well. *)
Theorem C47_previous_partial : forall exes p date, get_exes exes (Some p) date = p :: get_exes exes None date.
Proof. exact exes_previous. Qed.
Print Assumptions C47_previous_partial.
Theorem C47_refuted : exists files es p date, exe_files files es /\ In p es /\
  ~ Permutation (get_exes (load_exes files) (Some p) date) es.
Proof. exact previous_twice. Qed.
Print Assumptions C47_refuted.
Example C47_example : exe_files ex_files [ex1; ex2; ex3] /\
  get_exes (load_exes ex_files) None (str "2006-01-01") = [ex1; ex3; ex2].
Proof. exact (conj ex_ok ex_order). Qed.

(** ** C48 *)
(** With a set, or limits that do not exclude each other: at most 33 counts, increasing, each allowed. *)
Theorem C48_partial : forall s e, x_minor e < 100 -> settings_ok s ->
  exists l, (forall fuel, (34 <= fuel)%nat -> tries fuel s e None = Some l) /\ StronglySorted Z.lt l /\ Forall (allowed s e) l.
Proof. exact threads_ok. Qed.
Print Assumptions C48_partial.
(** --mt-min 8 --mt-max 4 *)
Theorem C48_refuted : exists s e l, x_minor e < 100 /\ tries 34 s e None = Some l /\ ~ Forall (limits s) l.
Proof. exact over_limit. Qed.
Print Assumptions C48_refuted.
Example C48_example : tries 34 (mkMt [] 0 3) ex1 None = Some [0; 1; 2; 3]%Z /\
  tries 34 (mkMt [] 30 0) ex2 None = Some [30; 31; 32]%Z /\ tries 34 (mkMt [2; 4; 24; 40] 3 0)%Z ex2 None = Some [4; 24]%Z.
Proof. exact ex_threads. Qed.

(** ** C50 *)
(** Every allowed count is tried, if the set is in increasing order. *)
Theorem C50_partial : forall s e l, x_minor e < 100 -> settings_ok s -> (mt_set s = [] \/ StronglySorted Z.lt (mt_set s)) ->
  tries 34 s e None = Some l -> forall n, In n l <-> allowed s e n.
Proof. exact threads_all. Qed.
Print Assumptions C50_partial.
(** --mt-set 8,4 *)
Theorem C50_refuted : exists s e l n, x_minor e < 100 /\ settings_ok s /\ tries 34 s e None = Some l /\ allowed s e n /\ ~ In n l.
Proof. exact not_tried. Qed.
Print Assumptions C50_refuted.
