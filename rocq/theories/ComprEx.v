(** ComprEx: examples of the blocks of compressed archives. *)
From Verif Require Import VolName.
From Verif Require Import Base BaseFacts Preprar Rarexe Compr ComprSpec ComprFacts.

Definition hb (i : N) (n : text) : blk := mkBlk i 0x71 n 0 0 20 0 [].
Definition mb (i : N) : blk := mkBlk i 0x72 [] 0 0 7 0 [].
Definition fb (i : N) (n : text) (fl p : N) (t : list (option (N * N * N))) : blk := mkBlk i 0x74 n fl p 40 p t.
Definition eb (i : N) : blk := mkBlk i 0x7B [] 0 0 7 0 [].
(** two volumes of one archive with a file in two parts, and another archive *)
Definition v1 : list blk := [hb 1 (str "cd1/a.rar"); mb 2; fb 3 (str "x") 0 100 [Some (2004, 5, 6); None]; eb 4].
Definition v2 : list blk := [hb 5 (str "cd1/a.r00"); mb 6; fb 7 (str "x") 0 50 []; fb 8 (str "y") 0x10 30 [Some (2003, 11, 20)]; eb 9].
Definition v3 : list blk := [hb 10 (str "cd2/b.part1.rar"); mb 11; fb 12 (str "z") 0 60 [Some (2004, 11, 1)]; fb 13 (str "w") 0x10 5 []; eb 14].
Lemma set_1 : set_is (str "cd1/a.rar") (str "cd1/a"). Proof. apply set_spec. vm_compute. reflexivity. Qed.
Lemma ex_archive : archive_of (str "cd1/a") [mkBlk 0 0x69 [] 0 0 7 0 []] (v1 ++ v2) v3.
Proof.
  split; [discriminate|]. split; [exists (hb 1 (str "cd1/a.rar")); eexists; split; reflexivity|]. split.
  - repeat (apply Forall_cons; [intros H; first [apply set_spec; vm_compute; reflexivity|vm_compute in H; discriminate H]|]). apply Forall_nil.
  - split.
    + intros x h y E Hh. destruct x as [|b x].
      * injection E as E1 _. subst h. vm_compute in Hh. discriminate Hh.
      * destruct x; discriminate E.
    + split; [reflexivity|]. intros H. apply set_spec in H. vm_compute in H. discriminate H.
Qed.
Lemma ex_archive2 : archive_of (str "cd2/b") (v1 ++ v2) v3 [].
Proof.
  split; [discriminate|]. split; [exists (hb 10 (str "cd2/b.part1.rar")); eexists; split; reflexivity|]. split.
  - repeat (apply Forall_cons; [intros H; first [apply set_spec; vm_compute; reflexivity|vm_compute in H; discriminate H]|]). apply Forall_nil.
  - split; [|exact I]. intros x h y E Hh _ Hs. apply set_spec in Hs.
    assert (Hin : In h (v1 ++ v2)) by (rewrite E; apply in_or_app; right; now left). cbn [v1 v2 app In] in Hin.
    destruct Hin as [<-|[<-|[<-|[<-|[<-|[<-|[<-|[<-|[<-|[]]]]]]]]]]; vm_compute in Hs; discriminate Hs || (vm_compute in Hh; discriminate Hh).
Qed.
Lemma ex_nodup : NoDup (map k_id ((v1 ++ v2) ++ v3 ++ [])).
Proof. vm_compute. repeat (constructor; [cbn [In]; intros H; repeat (destruct H as [H|H]; [discriminate H|]); exact H|]). constructor. Qed.
Lemma ex_plan : factory [] (fb 12 (str "z") 0 60 [Some (2004, 11, 1)]) ((v1 ++ v2) ++ v3 ++ []) = Ok (PSolid (fb 13 (str "w") 0x10 5 [])).
Proof. vm_compute. reflexivity. Qed.
Lemma ex_reuse : factory [str "z"] (fb 13 (str "w") 0x10 5 []) ((v1 ++ v2) ++ v3 ++ []) = Ok (PReuse (str "z") None).
Proof. vm_compute. reflexivity. Qed.
Lemma ex_size : full_packed_size (fb 7 (str "x") 0 50 []) (filter file_block (v1 ++ v2)) = 150 /\ volume_size (v1 ++ v2 ++ v3) = 154 /\
  recent_date (v1 ++ v2 ++ v3) = str "2004-11-01".
Proof. vm_compute. auto. Qed.
(** the first file is in two parts: the next block is of the same file, and the archive is not known to be solid *)
Lemma ex_split : factory [] (fb 3 (str "x") 0 100 [Some (2004, 5, 6); None]) (v1 ++ v2) = Ok (PAlone (Some (fb 7 (str "x") 0 50 []))).
Proof. vm_compute. reflexivity. Qed.
Lemma ex_key : factory [] (fb 13 (str "w") 0x10 5 []) (v1 ++ v2 ++ v3) = Err KeyError.
Proof. vm_compute. reflexivity. Qed.
(** a.part1.rar and a.rar *)
Definition v4 : list blk := [hb 20 (str "cd1/a.part1.rar"); mb 21; fb 22 (str "q") 0 9 []; eb 23].
Lemma ex_mixed : archived_blocks (v1 ++ v4) (fb 22 (str "q") 0 9 []) = [fb 3 (str "x") 0 100 [Some (2004, 5, 6); None]; fb 22 (str "q") 0 9 []].
Proof. vm_compute. reflexivity. Qed.
Lemma ex_pad : volume_size (v1 ++ [mkBlk 30 0x6C [] 0 0 7 1000 []]) = 154 /\ sum (map block_size (tl v1 ++ [mkBlk 30 0x6C [] 0 0 7 1000 []])) = 1154.
Proof. vm_compute. auto. Qed.
Lemma ex_mixed_ne : archived_blocks (v1 ++ v4) (fb 22 (str "q") 0 9 []) <> filter file_block (tl v4).
Proof. rewrite ex_mixed. discriminate. Qed.
Lemma ex_pad_ne : volume_size (v1 ++ [mkBlk 30 0x6C [] 0 0 7 1000 []]) <> sum (map block_size (tl v1 ++ [mkBlk 30 0x6C [] 0 0 7 1000 []])).
Proof. rewrite (proj1 ex_pad), (proj2 ex_pad). discriminate. Qed.
Lemma ex_solid : solid (mkBlk 1 0x74 (str "a") 0x8010 0 0 0 []) = true /\ solid (mkBlk 1 0x74 (str "a") 0x8020 0 0 0 []) = false.
Proof. split; vm_compute; reflexivity. Qed.
