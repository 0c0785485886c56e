(** Props_Preprar: the executables taken out of installers of RAR (C84). *)
From Verif Require Import VolSpec.
From Verif Require Import Base Rarexe RarexeSpec Preprar PreprarSpec PreprarFacts PreprarEx.

(** The version in the name of an installer that can be read in one way only is found. *)
Theorem C84_version : forall n v, clear_name n v -> versiontag n = Some v.
Proof. exact tag_clear. Qed.
Print Assumptions C84_version.
Example C84_version_example : three (str "wrar393.exe") (mkTag 3 93 []) (str ".exe") /\ two (str "wrar39b1.exe") (mkTag 3 90 (str "b1")) (str ".exe") /\
  unix (str "rarlinux-x64-5.4.0.tar.gz") (mkTag 5 40 []) [].
Proof. exact (conj ex_three (conj ex_two ex_unix)). Qed.
(** A version is found in such names only. *)
Theorem C84_only : forall n v, versiontag n = Some v -> exists rest, three n v rest \/ two n v rest \/ unix n v rest.
Proof. exact tag_only. Qed.
Print Assumptions C84_only.
Example C84_only_example : versiontag (str "rarlinux-3.9.b2.tar.gz") = Some (mkTag 3 90 (str "b2")) /\ versiontag (str "wrar.exe") = None.
Proof. split; vm_compute; reflexivity. Qed.
(** Every file that is made has a name that is read as an executable for reconstruction with the date and version of an
    installer, and comes from that installer; no name is there twice. *)
Theorem C84_known : forall enable_beta l d, Forall (fun x => content_ok (snd x)) l -> extract_all enable_beta l [] = Ok d ->
  NoDup (map fst d) /\ forall k f, In (k, f) d -> comes_from l enable_beta k f.
Proof. exact exes_known. Qed.
Print Assumptions C84_known.
Example C84_known_example : Forall (fun x => content_ok (snd x)) p_list /\ extract_all false p_list [] = Ok [(str "2016-08-15_rar540", str "rarlinux-x64-5.4.0.tar.gz"); (p_name, str "wrar393.exe")].
Proof. exact (conj ex_contents ex_list). Qed.
(** For every installer that is to be used there is an executable with its date and version.
    Missing: that it is the program of this installer, which is refuted below. *)
Theorem C84_kept_partial : forall enable_beta l d f c k, Forall (fun x => content_ok (snd x)) l -> extract_all enable_beta l [] = Ok d -> In (f, c) l -> wanted enable_beta f c k ->
  exists e, In k (map fst d) /\ exe_file k e.
Proof. exact exes_kept. Qed.
Print Assumptions C84_kept_partial.
Example C84_kept_example : wanted false (str "wrar393.exe") p_rar (str "2010-03-15_rar393.exe").
Proof. exact (ex_wanted false). Qed.
(** The programs of two installers of the same version get the same name and one is lost. *)
Theorem C84_lost_refuted : exists l d f c f' c' k, In (f, c) l /\ In (f', c') l /\ f <> f' /\ c <> c' /\ wanted false f c k /\ wanted false f' c' k /\ extract_all false l [] = Ok d /\ ~ In f (map snd d).
Proof.
  exists [(str "winrar-x64-393.exe", p_rar64); (str "wrar393.exe", p_rar)], [(p_name, str "wrar393.exe")], (str "winrar-x64-393.exe"), p_rar64, (str "wrar393.exe"), p_rar, p_name.
  split; [now left|]. split; [right; now left|]. split; [discriminate|]. split; [discriminate|]. split; [exact (ex_wanted64 false)|]. split; [exact (ex_wanted false)|]. split; [exact ex_lost|]. intros [H|[]]. discriminate H.
Qed.
Print Assumptions C84_lost_refuted.
(** Names of newer 32-bit installers are not known. *)
Theorem C84_name_refuted : exists date, content_ok (CTar date) /\ extract_all true [(str "rarlinux-x32-623.tar.gz", CTar date)] [] = Ok [].
Proof. exists (str "2016-08-15"). exact (conj p_tar_ok ex_x32). Qed.
Print Assumptions C84_name_refuted.
(** An installer that is no RAR file stops the use of the others. *)
Theorem C84_stop_refuted : exists l f c k e, In (f, c) l /\ wanted true f c k /\ extract_all true l [] = Err e.
Proof. exists [(str "wrar500.exe", COther); (str "wrar393.exe", p_rar)], (str "wrar393.exe"), p_rar, p_name, ValueError. split; [right; now left|]. exact (conj (ex_wanted true) ex_stop). Qed.
Print Assumptions C84_stop_refuted.
