(** RetryEx: servers and readers for the examples of C65. *)
From Verif Require Import Base BaseFacts Nntp NntpSpec NntpEx Retry RetrySpec.

(** a server that has the first [have] segments of [f] *)
Definition partial (name : text) (f : bytes) (size : N) (have : N) : server :=
  (fun i lines => if i <=? have then serve name f size 4 i lines else Err OSError, fun _ => 0).
Lemma partial_right name f size have : right (partial name f size have).
Proof. intros i lines d. unfold partial, serve. cbn [fst]. destruct (i <=? have); [|discriminate]. intros H. inversion H. reflexivity. Qed.
Definition t_less : N -> Z := fun n => Z.of_N (n - 1).
Definition t_all : server := partial r_name e_file 8 4.
Definition t_some : server := partial r_name e_file 8 2.
Definition t_nothing : server := partial r_name e_file 8 0.
(** as RarReader begins, and then all of the file *)
Definition t_open : reader unit :=
  Call NTell (fun _ => Call (NSeek 0 FromEnd) (fun r => match r with NError e => Done (Err e) | _ => Call (NSeek 0 FromStart) (fun _ => Done (Ok tt)) end)).
Definition t_read : unit -> reader bytes := fun _ => Call (NRead (-1)) (fun r => match r with NData d => Done (Ok d) | NError e => Done (Err e) | NPos _ => Done (Err TypeError) end).
Lemma t_seeks : seeks_end t_open.
Proof. exists (fun _ => Call (NSeek 0 FromEnd) (fun r => match r with NError e => Done (Err e) | _ => Call (NSeek 0 FromStart) (fun _ => Done (Ok tt)) end)). split; [reflexivity|]. intros r. exists (fun r => match r with NError e => Done (Err e) | _ => Call (NSeek 0 FromStart) (fun _ => Done (Ok tt)) end). now split. Qed.
(** a reader that reads seven bytes at once and seeks behind them *)
Definition u_open : reader bytes := Call (NRead 7) (fun r => match r with NData d => Done (Ok d) | NError e => Done (Err e) | NPos _ => Done (Err TypeError) end).
Definition u_read : bytes -> reader bytes := fun d => Call (NSeek 12 FromStart) (fun _ => Call (NRead 9) (fun r => match r with NData b => Done (Ok (d ++ b)) | NError e => Done (Err e) | NPos _ => Done (Err TypeError) end)).
(** letters of which the fifth looks like the type of a block *)
Definition u_file : bytes := bstr "ABCDsFAHIJKLMNOPQRSTUVWXY".
Definition u_all : server := partial r_name u_file 8 4.
Definition u_some : server := partial r_name u_file 8 2.
