(** LocateEx: examples of the search for files. *)
From Verif Require Import Base BaseFacts Path PathSpec PathFacts Glob Verify VerifySpec VerifyFacts Locate LocateSpec LocateFacts.

Fixpoint disk_of (l : list (text * bytes)) (p : text) : option entry :=
  match l with [] => None | (q, d) :: l => if teqb q p then Some (EFile d) else disk_of l p end.
Definition files : list (text * bytes) := [(str "/in/new.avi", bstr "abc"); (str "/in/d/x.txt", bstr "abc"); (str "/in/d/b.avi", bstr "xyz"); (str "/in/d/c.avi", bstr "12")].
Definition disk1 : text -> option entry := disk_of files.
Definition walk1 : list (text * list text) := [(str "/in", [str "new.avi"]); (str "/in/d", [str "x.txt"; str "b.avi"; str "c.avi"])].
Ltac isplain := repeat split; try discriminate; cbn [In]; intros H; repeat (destruct H as [H|H]; [discriminate H|]); exact H.
Lemma below1 c : plain c -> below [c] c.
Proof. intros H. repeat split; [discriminate|now constructor|]. constructor. intros s [<-|[]]. apply H. Qed.
Lemma folder1 : folder_ok (str "/in").
Proof. exists [str "in"], (str "in"). split; [reflexivity|]. apply below1. isplain. Qed.
Lemma walk1_ok : walk_ok disk1 walk1.
Proof.
  repeat (constructor; cbn [fst snd]); try isplain; eexists; vm_compute; reflexivity.
Qed.
Definition hints1 : list (text * text) := [(str "d\a.avi", str "old.avi"); (str "e", str "f"); (str "d\a.avi", str "new.avi")].
Lemma ex_hints : hints_of (str "d\a.avi:old.avi;e:f;d\a.avi:new.avi") = Some hints1.
Proof. vm_compute. reflexivity. Qed.
Lemma ex_hinted : hinted hints1 (str "d\a.avi") (str "new.avi").
Proof. exists (firstn 2 hints1), []. split; [reflexivity|constructor]. Qed.
Lemma target1 : target hints1 (str "d\a.avi") (str "new.avi").
Proof. left. split; [exact ex_hinted|]. exists [str "new.avi"]. apply below1. isplain. Qed.
Lemma own1 : rar_path (str "d\a.avi") (str "d/a.avi").
Proof. apply rar_os_file_name_spec. vm_compute. reflexivity. Qed.
Lemma ext1 : ext_of (str "d/a.avi") (str ".avi") /\ literal (str ".avi").
Proof.
  split; [apply (extension_ok (str "d/a.avi"))|]. repeat (constructor; [cbn; intros H; repeat (destruct H as [H|H]; [discriminate H|]); exact H|]). constructor.
Qed.
Lemma ex_locate : folder_ok (str "/in") /\ target hints1 (str "d\a.avi") (str "new.avi") /\ rar_path (str "d\a.avi") (str "d/a.avi") /\
  ext_of (str "d/a.avi") (str ".avi") /\ literal (str ".avi") /\ walk_ok disk1 walk1 /\
  locate_path disk1 walk1 hints1 false (str "/in") (str "d\a.avi") 3 = Ok (str "/in/new.avi") /\
  locate_path disk1 walk1 hints1 true (str "/in") (str "d\a.avi") 2 = Err InvalidFileSize /\
  locate_path disk1 walk1 [] true (str "/in") (str "d\a.avi") 2 = Ok (str "/in/d/c.avi") /\
  locate_path disk1 walk1 [] false (str "/in") (str "d\a.avi") 2 = Err Base.FileNotFound.
Proof.
  split; [exact folder1|]. split; [exact target1|]. split; [exact own1|]. split; [exact (proj1 ext1)|]. split; [exact (proj2 ext1)|]. split; [exact walk1_ok|].
  vm_compute. auto.
Qed.
(** two files of the archive, of which only one is there: it is used for both *)
Lemma ex_twice : locate_path disk1 walk1 [] true (str "/in") (str "d\a.avi") 3 = Ok (str "/in/new.avi") /\
  locate_path disk1 walk1 [] true (str "/in") (str "d\q.avi") 3 = Ok (str "/in/new.avi").
Proof. vm_compute. auto. Qed.
(** the size is not known: the file is not found under another name *)
Lemma ex_unknown : locate_path disk1 walk1 [] true (str "/in") (str "d\a.avi") 0xFFFFFFFF = Err Base.FileNotFound.
Proof. vm_compute. reflexivity. Qed.
(** a file with the name and another size: the right one beside it is not searched *)
Lemma ex_wrong : locate_path disk1 walk1 [] true (str "/in") (str "new.avi") 2 = Err InvalidFileSize.
Proof. vm_compute. reflexivity. Qed.
(** the extension is a pattern *)
Lemma ex_pattern : locate_path (disk_of [(str "/in/b.[x]", bstr "abc")]) [(str "/in", [str "b.[x]"])] [] true (str "/in") (str "a.[x]") 3 = Err Base.FileNotFound.
Proof. vm_compute. reflexivity. Qed.
Lemma ex_colon t : hints_of t <> Some [(str "a", str "C:\b")].
Proof.
  intros H. apply hints_thm in H. destruct H as (_ & H). apply Forall_inv in H. destruct H as (_ & (H & _)). apply H. cbn. auto.
Qed.
