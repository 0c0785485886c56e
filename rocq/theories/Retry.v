(** Retry: reading a posted volume again from other servers when it fails.
    Making a connection does not fail; printing is left out.  NNTPTemporaryError is written as OSError. *)
From Verif Require Import Base Nntp.
Local Open Scope Z_scope.

(** ** init_data *)
(** usenet/srr_usenet.py:343-369 what is wiped; _did_seek and the sizes of the segments are not *)
Definition init_data (s : nfile) : nfile :=
  mkN (fun i => match n_segs s i with Some g => Some (mkSeg (s_id g) (s_bytes g) (s_size g) (Some (0, 0))) | None => None end)
    (n_count s) (fun _ => None) 0 0 0 true (n_seek s) false.
(** usenet/srr_usenet.py:371-380 which of the [count] servers is picked; no fuel left: the loop goes on for ever *)
Fixpoint pick (fuel : nat) (count nb : Z) : result Z :=
  match fuel with
  | O => Err OutOfFuel
  | S fuel =>
    if count - 1 <? nb then
      let nb := nb - count in
      pick fuel count (if nb <? 0 then 0 else nb)
    else Ok nb
  end.

(** ** A reader of the file: what it calls, depending on the replies *)
Inductive reader (A : Type) := Done (r : result A) | Call (c : ncall) (k : nreply -> reader A).
Arguments Done {A}. Arguments Call {A}.
Fixpoint first_then {A B} (p : reader A) (q : A -> reader B) : reader B :=
  match p with
  | Done (Ok a) => q a
  | Done (Err e) => Done (Err e)
  | Call c k => Call c (fun r => first_then (k r) q)
  end.

(** a server: decoded articles and their numbers of lines *)
Definition server : Type := (N -> Z -> result dpart) * (N -> N).
Section Retry.
Variables (name : text) (rar : bool) (less : N -> Z).
Fixpoint n_run {A} (new_server : bool) (v : server) (p : reader A) (s : nfile) : nfile * result A :=
  match p with
  | Done r => (s, r)
  | Call c k => let x := n_call name rar new_server (fst v) (snd v) less s c in n_run new_server v (k (snd x)) (fst x)
  end.

(** the server of the file when it was made; EXTRA_SERVERS *)
Variables (original : server) (extra : list server).
Definition pick_server (nb : Z) : result server :=
  do i <- pick (S (Z.to_nat nb)) (Z.of_nat (length extra)) nb;
  match nth_error extra (Z.to_nat i) with Some v => Ok v | None => Err IndexError end.
(** except (EnvironmentError, IndexError, nntplib.NNTPTemporaryError) *)
Definition caught (e : exn) : bool := match e with EnvironmentError | OSError | IndexError => true | _ => false end.

Context {R A : Type}.
(** RarReader(rarfile), and read_all of what it gives *)
Variables (opened : reader R) (read_all : R -> reader A).
(** rescene/main.py:668-684 the loop; [v] is the server picked by init_data *)
Fixpoint retry (fuel : nat) (read_retries stop : Z) (v : server) (s : nfile) : result A :=
  match fuel with
  | O => Err OutOfFuel
  | S fuel =>
    let x := n_run true v (first_then opened read_all) s in
    match snd x with
    | Ok a => Ok a
    | Err e =>
      if caught e then
        if stop <=? read_retries then
          do v <- pick_server (stop + 1);
          retry fuel read_retries (stop + 1) v (init_data (fst x))
        else Err e
      else Err e
    end
  end.
(** rescene/main.py:642-684 _rarreader_usenet *)
Definition rarreader_usenet (read_retries : Z) (s : nfile) : result A :=
  let x := n_run false original opened s in
  match snd x with
  | Err e => Err e
  | Ok r =>
    let y := n_run false original (read_all r) (fst x) in
    match snd y with
    | Ok a => Ok a
    | Err e =>
      if caught e then
        do v <- pick_server 0;
        retry (S (S (S (Z.to_nat read_retries)))) read_retries 0 v (init_data (fst y))
      else Err e
    end
  end.
End Retry.
