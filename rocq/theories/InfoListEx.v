(** InfoListEx: examples of archived files and SFV sums in the listing. *)
From Verif Require Import Base BaseFacts Path Rar Sfv Info InfoListSpec InfoListFacts.

Definition part (n : text) (packed unpacked crc : N) : file_info := mkFile packed unpacked 0 crc 0 20 48 32 n.
Definition x_files : list file_info := [part (str "a") 10 30 1; part (str "b") 5 0xffffffff 7; part (str "a") 20 30 2; part (str "b") 6 0xffffffff 8].
Definition x_rars : list (text * rar_info) := [(str "a.rar", mkRar (str "CD1/A.rar") 10 0 10 None); (str "a.r00", mkRar (str "CD1/A.r00") 10 10 20 None)].
Definition x_sfv : list sfv := [mkSfv (str "A.rar") (str "0000000a"); mkSfv (str "x.nfo") (str "1"); mkSfv (str "cd1/a.rar") (str "0000000b")].
Lemma ex_sums : add_sums lower (fun t => t) x_sfv x_rars = ([(str "a.rar", mkRar (str "CD1/A.rar") 10 0 10 (Some (str "0000000b"))); (str "a.r00", mkRar (str "CD1/A.r00") 10 10 20 None)], [mkSfv (str "x.nfo") (str "1")]).
Proof. vm_compute. reflexivity. Qed.
Lemma ex_files : i_files (fold_left arch_step x_files info0) = [(str "a", mkArch (str "a") 30 false 2); (str "b", mkArch (str "b") 11 false 8)].
Proof. vm_compute. reflexivity. Qed.
Lemma ex_known : parts x_files (str "a") = [part (str "a") 10 30 1; part (str "a") 20 30 2] /\ (forall g, In g [part (str "a") 10 30 1; part (str "a") 20 30 2] -> f_unpacked g <> 0xffffffff /\ f_unpacked g <> 0xffffffffffffffff).
Proof. split; [vm_compute; reflexivity|]. intros g [<-|[<-|[]]]; split; vm_compute; discriminate. Qed.
Lemma ex_unknown : parts x_files (str "b") = [part (str "b") 5 0xffffffff 7; part (str "b") 6 0xffffffff 8] /\ (forall g, In g [part (str "b") 5 0xffffffff 7; part (str "b") 6 0xffffffff 8] -> f_unpacked g = 0xffffffff) /\ sum_packed (parts x_files (str "b")) = 11.
Proof. split; [vm_compute; reflexivity|]. split; [intros g [<-|[<-|[]]]; reflexivity|vm_compute; reflexivity]. Qed.
(** parts without data come first: the size is taken from the unknown one *)
Lemma ex_zero : i_files (fold_left arch_step [part (str "b") 0 0xffffffff 7; part (str "b") 6 0xffffffff 8] info0) = [(str "b", mkArch (str "b") 0x100000005 false 8)].
Proof. vm_compute. reflexivity. Qed.
