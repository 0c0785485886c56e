(** NzbMoveEx: a folder with three NZB files. *)
From Coq Require Import Permutation.
From Verif Require Import Base BaseFacts Path PathFacts NzbMove NzbMoveSpec NzbMoveFacts.

Definition n_disk : disk := [(str "d/a.nzb", 1); (str "d/b.nzb", 2); (str "d/c.txt", 3); (str "d/e.nzb", 4)].
Definition n_out (f : text) : outcome := if teqb f (str "d/a.nzb") then OMade else if teqb f (str "d/b.nzb") then OErr (XNntp (Some (str "430 no such article"))) else OErr XOS.
Lemma ex_folder : folder_path (str "d"). Proof. split; [discriminate|reflexivity]. Qed.
Lemma ex_keys : NoDup (map fst n_disk).
Proof. repeat (constructor; [intros H; repeat (destruct H as [H|H]; [discriminate H|]); exact H|]). constructor. Qed.
Lemma ex_moved : process_dir false n_out (str "d") n_disk = ([(str "d/serverfailure/b.nzb", 2); (str "d/success/a.nzb", 1); (str "d/c.txt", 3); (str "d/e.nzb", 4)], None).
Proof. vm_compute. reflexivity. Qed.
Lemma ex_free f q : In f (map fst n_disk) -> place_for (str "d") n_out q f -> ~ In q (map fst n_disk).
Proof.
  intros _ (n & pl & _ & _ & _ & ->) I. assert (G : forall x, In x (map fst n_disk) -> exists m, x = str "d" ++ 47 :: m /\ ~ In 47 m).
  { intros x H. repeat (destruct H as [<-|H]; [eexists; split; [reflexivity|]; intros K; repeat (destruct K as [K|K]; [discriminate K|]); exact K|]). destruct H. }
  destruct (G _ I) as (m & E & Hm). apply app_inv_head in E. injection E as E. apply Hm. rewrite <- E. apply in_app_iff. right. now left.
Qed.
(** an NZB file of this name was moved before *)
Definition n_twice : disk := [(str "d/a.nzb", 1); (str "d/success/a.nzb", 2)].
Lemma ex_twice : process_dir false (fun _ => OMade) (str "d") n_twice = ([(str "d/success/a.nzb", 1)], None).
Proof. vm_compute. reflexivity. Qed.
Lemma ex_dry : process_dir true (fun _ => OMade) (str "d") [(str "d/a.nzb", 1)] = ([(str "d/bad/a.nzb", 1)], None).
Proof. vm_compute. reflexivity. Qed.
Lemma ex_stat : stat_last_segment false false RTemp [ELogin RFound] = Ok false.
Proof. vm_compute. reflexivity. Qed.
