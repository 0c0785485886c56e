(** C89: the commands tried to find the RAR executable of a compressed file. *)
From Coq Require Import Sorted.
From Verif Require Import VolName VolSpec.
From Verif Require Import Base Path Flags FlagsSpec Rarexe RarexeSpec Search SearchSpec SearchFacts SearchEx.

(** For each executable all numbers of threads that the user allows and it takes, first without and then with the file before; the
    first command that works is the result, and there is none only if no command works.  Missing: blocks without CRC, and trying with the
    file behind (see below). *)
Theorem C89_search_partial : forall folder supports works s j repository exes method flags split out src piece archived prev f,
  settings_ok s -> (mt_set s = [] \/ StronglySorted Z.lt (mt_set s)) -> Forall (fun e => marked folder e /\ x_minor e < 100) exes -> repository <> [] ->
  job_of method flags split out j -> out <> [] -> file_before archived prev f ->
  exists ats r, attempts supports s [piece] f exes ats /\ first_working (fun x => exists c, command folder j x c /\ works c = true) ats r /\
    match r with
    | None => search folder supports works s repository exes false method flags out src piece split [] archived prev = Ok None
    | Some x => exists a, search folder supports works s repository exes false method flags out src piece split [] archived prev = Ok (Some (t_exe x, a)) /\
        command folder j x (exe_path folder (t_exe x) :: arglist a)
    end.
Proof. exact search_thm. Qed.
Print Assumptions C89_search_partial.
Example C89_search_ex : Forall (fun e => marked (str "/rar") e /\ x_minor e < 100) [e1; e2] /\
  job_of 0x33 0xC0 600 (str "o.rar") (mkJob 3 (str "-mdG") false (Some 600) (str "o.rar")) /\
  file_before [(str "q", str "after"); (str "p", str "before")] (Some (str "p")) (Some (str "before")) /\
  search (str "/rar") sup (beq cmd2) s1 [e2] [e1; e2] false 0x33 0xC0 (str "o.rar") (str "src") (str "piece") 600 [] [(str "q", str "after"); (str "p", str "before")] (Some (str "p")) =
    Ok (Some (e2, found2)).
Proof. exact ex_search. Qed.
Example C89_command_ex : exe_path (str "/rar") e2 :: arglist found2 = cmd2.
Proof. exact ex_cmd. Qed.

(** the search for a block of RAR 2.0x, which has no CRC, always fails *)
Theorem C89_old : forall folder supports works s repository e exes method flags split out src piece more archived prev, 0x30 <= method <= 0x35 ->
  search folder supports works s repository (e :: exes) true method flags out src piece split more archived prev = Err UnboundLocal.
Proof. exact old_thm. Qed.
Print Assumptions C89_old.
(** it finds an executable when all commands work: false *)
Theorem C89_old_refuted : exists e, marked (str "/rar") e /\
  search (str "/rar") (fun _ => false) (fun _ => true) s1 [e] [e] true 0x33 0xC0 (str "o.rar") (str "src") (str "piece") 0 [] [] None = Err UnboundLocal.
Proof. exact (ex_intro _ e1 (conj marked1 ex_old)). Qed.
Print Assumptions C89_old_refuted.

(** with the file behind all executables are tried: false, it is only used with the first one *)
Theorem C89_more_refuted : exists folder works e e' j next, (exists c, command folder j (mkAtt e' None [str "piece"; next]) c /\ works c = true) /\
  marked folder e' /\ job_of 0x33 0xC0 0 (str "o.rar") j /\
  search folder (fun _ => false) works s1 [e'] [e; e'] false 0x33 0xC0 (str "o.rar") (str "src") (str "piece") 0 [next] [] None = Ok None.
Proof.
  exact (ex_intro _ (str "/rar") (ex_intro _ with_next (ex_intro _ e1 (ex_intro _ e2 (ex_intro _ job1 (ex_intro _ (str "next")
    (conj ex_more_cmd (conj marked2 (conj ex_job ex_more))))))))).
Qed.
Print Assumptions C89_more_refuted.

(** the search ends without error: false when the file before was not compressed but another one was *)
Theorem C89_missing_refuted : exists folder works e e' archived p,
  search folder (fun _ => false) works s1 [e'] [e; e'] false 0x33 0xC0 (str "o.rar") (str "src") (str "piece") 0 [] archived (Some p) = Err KeyError.
Proof. exact (ex_intro _ (str "/rar") (ex_intro _ (fun _ => false) (ex_intro _ e1 (ex_intro _ e2 (ex_intro _ [(str "q", str "x")] (ex_intro _ (str "p") ex_missing)))))). Qed.
Print Assumptions C89_missing_refuted.

(** the options depend on the version only: false, the name of the folder counts too *)
Theorem C89_folder_refuted : exists folder e, x_major e = 3 /\
  search folder (fun _ => false) no_ma4 s1 [e] [e] false 0x33 0xC0 (str "o.rar") (str "src") (str "piece") 0 [] [] None = Ok None.
Proof. exact (ex_intro _ (str "/all_rar500") (ex_intro _ e1 (conj eq_refl ex_folder))). Qed.
Print Assumptions C89_folder_refuted.
