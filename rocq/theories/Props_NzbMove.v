(** Props_NzbMove: where NZB files are put after the attempt to make an SRR file, and the test of the last segment (C85). *)
From Coq Require Import Permutation.
From Verif Require Import Base Path NzbMove NzbMoveSpec NzbMoveFacts NzbMoveEx.

(** All NZB files directly in the folder are handled until one ends the program; those that are handled are in the folder
    of their outcome, or where they were if the network failed, and no other file is changed except for those replaced. *)
Theorem C85_sorted : forall p out d, folder_path p -> NoDup (map fst d) -> exists l done rest d', l = done ++ rest /\ NoDup l /\ (forall f, In f l <-> In f (map fst d) /\ exists n, f = p ++ 47 :: n /\ nzb_name n) /\
  fst (process_dir false out p d) = d' /\ NoDup (map fst d') /\ sorted_out p out done d d' /\ Forall (fun f => ~ ends_program (out f)) done /\
  match rest with [] => snd (process_dir false out p d) = None | f :: _ => ends_program (out f) /\ snd (process_dir false out p d) <> None end.
Proof. exact dir_sorted. Qed.
Print Assumptions C85_sorted.
Example C85_sorted_example : folder_path (str "d") /\ NoDup (map fst n_disk) /\
  process_dir false n_out (str "d") n_disk = ([(str "d/serverfailure/b.nzb", 2); (str "d/success/a.nzb", 1); (str "d/c.txt", 3); (str "d/e.nzb", 4)], None).
Proof. exact (conj ex_folder (conj ex_keys ex_moved)). Qed.
(** No file is lost if no file has the name of one that is moved in its new folder. *)
Theorem C85_kept_partial : forall p out d, folder_path p -> NoDup (map fst d) -> (forall f q, In f (map fst d) -> place_for p out q f -> ~ In q (map fst d)) ->
  Permutation (map snd d) (map snd (fst (process_dir false out p d))).
Proof. exact dir_kept. Qed.
Print Assumptions C85_kept_partial.
Example C85_kept_example : forall f q, In f (map fst n_disk) -> place_for (str "d") n_out q f -> ~ In q (map fst n_disk).
Proof. exact ex_free. Qed.
(** A file that is there with the name is replaced without notice. *)
Theorem C85_kept_refuted : exists p out d, folder_path p /\ NoDup (map fst d) /\ ~ Permutation (map snd d) (map snd (fst (process_dir false out p d))).
Proof.
  exists (str "d"), (fun _ => OMade), n_twice. split; [exact ex_folder|]. split.
  - constructor; [intros [H|[]]; discriminate H|]. constructor; [intros []|constructor].
  - rewrite ex_twice. intros H. apply Permutation_length in H. discriminate H.
Qed.
Print Assumptions C85_kept_refuted.
(** A dry run moves nothing if all attempts fail with errors of the server, the network or the program. *)
Theorem C85_dry_partial : forall p out d,
  (forall f, In f (map fst d) -> out f = OErr XOS \/ out f = OErr XPermanent \/ out f = OErr XOther \/ (exists t, out f = OErr (XNntp t)) \/ ends_program (out f)) -> fst (process_dir true out p d) = d.
Proof. exact dry_none. Qed.
Print Assumptions C85_dry_partial.
Example C85_dry_example : process_dir true (fun _ => OErr XPermanent) (str "d") n_disk = (n_disk, None).
Proof. vm_compute. reflexivity. Qed.
(** But a good NZB file is moved to the bad ones by a dry run. *)
Theorem C85_dry_refuted : exists p out d f v, In (f, v) d /\ out f = OMade /\ fst (process_dir true out p d) = [(p ++ str "/bad/a.nzb", v)].
Proof. exists (str "d"), (fun _ => OMade), [(str "d/a.nzb", 1)], (str "d/a.nzb"), 1. split; [now left|]. split; [reflexivity|]. now rewrite ex_dry. Qed.
Print Assumptions C85_dry_refuted.
(** The test of the last segment tells whether it is there already or the first server has it. *)
Theorem C85_stat_partial : forall nostat have main servers b, stat_last_segment nostat have main servers = Ok b -> (b = true <-> nostat = true \/ have = true \/ main = RFound).
Proof. exact stat_answer. Qed.
Print Assumptions C85_stat_partial.
Example C85_stat_example : stat_last_segment false false RFound [] = Ok true /\ stat_last_segment false false RTemp [EDenied] = Ok false.
Proof. split; reflexivity. Qed.
(** The other servers are never asked. *)
Theorem C85_stat_refuted : exists main servers, available main servers /\ stat_last_segment false false main servers = Ok false.
Proof. exists RTemp, [ELogin RFound]. split; [right; now left|exact ex_stat]. Qed.
Print Assumptions C85_stat_refuted.
