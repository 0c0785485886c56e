(** UsenetSrrEx: examples for SRR files of posted files. *)
From Coq Require Import Permutation.
From Verif Require Import VolName VolSpec.
From Verif Require Import Base BaseFacts Rar Srr SrrSpec SrrFacts Sfv SfvSpec Collect CollectSpec CollectFacts CollectEx UsenetSrr UsenetSrrSpec UsenetSrrFacts.

Definition xu (n : string) (d : bytes) : text * ufile := (str n, mkU (str n) (Some d) (lenN d) true).
Definition x_sfv : ufile := snd (xu "x.sfv" d_set).
(** posted with other capitals *)
Definition x_files : udict := [xu "x.r00" (rar_of x01); xu "X.RAR" (rar_of x01); xu "x.sfv" d_set].
Definition x_us : list ufile := [snd (xu "X.RAR" (rar_of x01)); snd (xu "x.r00" (rar_of x01))].
Definition x_vols : list (text * bytes) := [(str "X.RAR", rar_of x01); (str "x.r00", rar_of x01)].
Definition x_b : bytes := match create_srr (str "a") [(str "x.sfv", d_set)] x_vols true [] with Ok b => b | Err _ => [] end.
Lemma ex_srr : create_srr (str "a") [(str "x.sfv", d_set)] x_vols true [] = Ok x_b /\ usenet_srr (str "a") [x_sfv] x_files [] = Ok (Some (false, x_b)) /\ (100 <? lenN x_b) = true.
Proof. vm_compute. repeat split; reflexivity. Qed.
Lemma ex_posted : sfv_posted x_sfv (s_old, 2%nat).
Proof. destruct ex_sfv_for as (_ & A & B & C & data & es & cs & rs & D & E & F). split; [exact A|]. split; [exact B|]. split; [exact C|]. exists data, es, cs, rs. split; [|split; [exact E|exact F]]. vm_compute in D. apply some_inj in D. subst data. vm_compute. reflexivity. Qed.
Lemma ex_picks : Forall2 (picks x_files) (set_names [(s_old, 2%nat)]) x_us.
Proof.
  change (set_names [(s_old, 2%nat)]) with [str "x.rar"; str "x.r00"]. constructor; [right|constructor; [left; now left|constructor]]. split.
  - vm_compute. intros [H|[H|[H|[]]]]; discriminate H.
  - exists [xu "x.r00" (rar_of x01)], (str "X.RAR"), [xu "x.sfv" d_set]. split; [reflexivity|]. split; [right; right; reflexivity|]. intros k [<-|[]]. intros [H|[H|H]]; vm_compute in H; discriminate H.
Qed.
(** without an SFV file *)
Definition y_files : udict := [xu "x.r00" (rar_of x01); xu "x.rar" (rar_of x01); xu "x.nfo" (bstr "hi")].
Lemma ex_no_sfv : match usenet_srr (str "a") [] y_files [snd (xu "x.nfo" (bstr "hi"))] with Ok (Some (no_sfv, b)) =>
  no_sfv = true /\ create_srr (str "a") [(str "x.nfo", bstr "hi")] [(str "x.rar", rar_of x01); (str "x.r00", rar_of x01)] true [] = Ok b | _ => False end.
Proof. vm_compute. repeat split; reflexivity. Qed.
(** what goes wrong *)
Definition d_case : bytes := bstr "A.rar 00000001" ++ nl.
Lemma ex_case : usenet_srr (str "a") [snd (xu "x.sfv" d_case)] [xu "a.RAR" (rar_of x01)] [] = Err FileNotFound.
Proof. vm_compute. reflexivity. Qed.
Definition x_broken : ufile := mkU (str "x.nfo") None 4 true.
Lemma ex_skip : usenet_srr (str "a") [x_sfv] x_files [x_broken] = Ok (Some (false, x_b)).
Proof. vm_compute. reflexivity. Qed.
Definition z_last (n : string) (d : bytes) : text * ufile := (str n, mkU (str n) (Some d) (lenN d) false).
Definition z_files : udict := [z_last "x.r00" (rar_of x01); z_last "X.RAR" (rar_of x01); xu "x.sfv" d_set].
Lemma ex_last : usenet_srr (str "a") [x_sfv] z_files [] = Ok (Some (false, x_b)).
Proof. vm_compute. reflexivity. Qed.
(** the size that is told is bigger than the file *)
Definition x_long : ufile := mkU (str "x.nfo") (Some (bstr "hi")) 200 true.
Lemma ex_size : match usenet_srr (str "a") [x_sfv] x_files [x_long] with Ok (Some (_, b)) => read_all b = Err EnvironmentError | _ => False end.
Proof. vm_compute. reflexivity. Qed.
(** one volume that is not a RAR file *)
Definition d_more : bytes := bstr "A.rar 00000001" ++ nl ++ bstr "A.r00 00000002" ++ nl ++ bstr "b.r05 00000003" ++ nl.
Definition t_files : udict := [xu "a.rar" (rar_of x01); xu "a.r00" (rar_of x01); xu "b.r05" []].
Definition t_sfv : ufile := mkU (str "x.sfv") (Some d_more) (lenN d_more) true.
Lemma ex_twice : match usenet_srr (str "a") [t_sfv] t_files [] with Ok (Some (no_sfv, b)) => no_sfv = true /\
  create_srr (str "a") [(str "x.sfv", d_more)] [(str "a.rar", rar_of x01); (str "a.r00", rar_of x01); (str "a.rar", rar_of x01); (str "a.r00", rar_of x01)] true [] = Ok b | _ => False end.
Proof. vm_compute. repeat split; reflexivity. Qed.
Lemma ex_honest : Forall honest [snd (xu "x.sfv" d_case)].
Proof.
  constructor; [|constructor]. intros d H. vm_compute in H. apply some_inj in H. subst d. split; [|split; vm_compute; reflexivity].
  split; [vm_compute; discriminate|]. split; [discriminate|]. split; [|vm_compute; reflexivity]. apply Forall_forall. intros c I J. vm_compute in I, J. repeat (destruct I as [<-|I]; [repeat (destruct J as [J|J]; [discriminate J|]); destruct J|]). destruct I.
Qed.
Lemma ex_vols : Forall2 vol_of x_us x_vols.
Proof. repeat constructor. Qed.
Lemma ex_not_last : forall k u, In (k, u) z_files -> rar_ending k -> u_last u = false.
Proof.
  intros k u [H|[H|[H|[]]]] R; try (injection H as <- <-; reflexivity). exfalso. injection H as <- <-. apply VolFacts.is_rar_spec in R. vm_compute in R. discriminate R.
Qed.
Lemma ex_t_nodup : NoDup (map fst t_files).
Proof. repeat constructor; cbn; intros H; repeat (destruct H as [H|H]; [vm_compute in H; discriminate H|]); destruct H. Qed.
