(** Props_Retry: the theorems of C65, on trying again with other servers. *)
From Verif Require Import Base BaseFacts Nntp NntpSpec NntpEx Retry RetrySpec RetryFacts RetryEx.

(** the result is that of the first download that does not fail with such an error; each download is like that of a new
    file, whatever was left of the one before; the servers take turns *)
Theorem C65_settles : forall R A name rar less original extra nzb (opened : reader R) (read_all : R -> reader A) n,
  extra <> [] -> right original -> Forall right extra -> rar = false \/ seeks_end opened ->
  ~ temporary (download name rar less nzb opened false original) ->
  settles (download name rar less nzb (first_then opened read_all) false original ::
           map (download name rar less nzb (first_then opened read_all) true) (turns extra (n + 2)))
    (rarreader_usenet name rar less original extra opened read_all (Z.of_nat n) (n_new nzb)).
Proof. exact (fun R A name rar less original extra nzb opened read_all n He Ho Hr Hs => usenet_settles name rar less extra nzb opened read_all He Hr Hs original Ho n). Qed.
Print Assumptions C65_settles.
(** "tries redownloading data read_retries times": it is downloaded two times more *)
Theorem C65_retries_refuted : exists name rar less original extra nzb n, right original /\ Forall right extra /\
  (forall v, In v (original :: turns extra (n + 1)) -> download name rar less nzb (first_then t_open t_read) true v = Err OSError) /\
  rarreader_usenet name rar less original extra t_open t_read (Z.of_nat n) (n_new nzb) = Ok e_file.
Proof.
  exists r_name, true, t_less, t_some, [t_some; t_some; t_all], e_nzb, 1%nat. split; [apply partial_right|]. split; [repeat (apply Forall_cons; [apply partial_right|]); apply Forall_nil|].
  split; [|vm_compute; reflexivity]. intros v [<-|[<-|[<-|[]]]]; vm_compute; reflexivity.
Qed.
Print Assumptions C65_retries_refuted.
(** the first opening is not tried again *)
Theorem C65_open_refuted : exists name rar less original extra nzb n, right original /\ Forall right extra /\
  (forall v, In v (turns extra (n + 2)) -> download name rar less nzb (first_then t_open t_read) true v = Ok e_file) /\
  rarreader_usenet name rar less original extra t_open t_read (Z.of_nat n) (n_new nzb) = Err OSError.
Proof.
  exists r_name, true, t_less, t_nothing, [t_all], e_nzb, 1%nat. split; [apply partial_right|]. split; [apply Forall_cons; [apply partial_right|apply Forall_nil]|].
  split; [|vm_compute; reflexivity]. intros v [<-|[<-|[<-|[]]]]; vm_compute; reflexivity.
Qed.
Print Assumptions C65_open_refuted.
(** without other servers the choice of one does not end *)
Theorem C65_none_refuted : exists count nb, forall fuel, pick fuel count nb = Err OutOfFuel.
Proof. exists 0%Z, 0%Z. intros fuel. induction fuel as [|fuel IH]; [reflexivity|exact IH]. Qed.
Print Assumptions C65_none_refuted.
(** the memory of a seek survives: a reader of a RAR name that does not begin with a seek gets other bytes than from a new file *)
Theorem C65_seek_refuted : exists name less original extra nzb, right original /\ Forall right extra /\
  temporary (download name true less nzb (first_then u_open u_read) false original) /\
  Forall (fun v => exists a, download name true less nzb (first_then u_open u_read) true v = Ok a /\
    rarreader_usenet name true less original extra u_open u_read 7 (n_new nzb) <> Ok a) extra.
Proof.
  exists r_name, t_less, u_some, [u_all], e_nzb. split; [apply partial_right|]. split; [apply Forall_cons; [apply partial_right|apply Forall_nil]|]. split; [vm_compute; auto|].
  apply Forall_cons; [|apply Forall_nil]. eexists. split; [vm_compute; reflexivity|]. vm_compute. intros H. discriminate H.
Qed.
Print Assumptions C65_seek_refuted.
Example C65_settles_example : right t_some /\ Forall right [t_some; t_all] /\ seeks_end t_open /\
  download r_name true t_less e_nzb t_open false t_some = Ok tt /\
  download r_name true t_less e_nzb (first_then t_open t_read) false t_some = Err OSError /\
  rarreader_usenet r_name true t_less t_some [t_some; t_all] t_open t_read 7 (n_new e_nzb) = Ok e_file.
Proof.
  split; [apply partial_right|]. split; [repeat (apply Forall_cons; [apply partial_right|]); apply Forall_nil|]. split; [exact t_seeks|]. vm_compute. auto.
Qed.
