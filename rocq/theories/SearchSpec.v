(** SearchSpec: the commands to try for a compressed file. *)
From Coq Require Import Sorted.
From Verif Require Import VolName VolSpec.
From Verif Require Import Base Path Flags FlagsSpec Rarexe RarexeSpec.

(** a number as it is written *)
Definition number (n : N) (t : text) : Prop := n = 0 /\ t = str "0" \/ decimal n t.
(** what is to be compressed and how *)
Record job := mkJob { j_level : N; j_dict : text; j_solid : bool; j_split : option N; j_out : text }.
(** an executable, the number of threads, the files *)
Record attempt := mkAtt { t_exe : exe; t_threads : option Z; t_files : list text }.
Definition opt {A} (o : option A) (P : A -> text -> Prop) (l : list text) : Prop :=
  match o with None => l = [] | Some x => exists t, l = [t] /\ P x t end.
(** the command of an attempt: old names of volumes but for version 2, the format of version 4 since version 5 *)
Definition command (folder : text) (j : job) (x : attempt) (c : list text) : Prop :=
  exists lev mt v, number (j_level j) lev /\
  opt (t_threads x) (fun n t => exists u, number (Z.to_N n) u /\ t = str "-mt" ++ u) mt /\
  opt (j_split j) (fun n t => exists u, number n u /\ t = str "-v" ++ u ++ str "b") v /\
  c = [pjoin folder (x_file (t_exe x)); str "a"; str "-m" ++ lev; j_dict j; if j_solid j then str "-s" else str "-s-"; str "-ds"] ++ mt ++
      (if x_major (t_exe x) =? 2 then [] else [str "-vn"]) ++
      (if (x_major (t_exe x) =? 5) || (x_major (t_exe x) =? 6) then [str "-ma4"] else []) ++
      [str "-o+"; str "-ep"; str "-idcd"] ++ v ++ [j_out j] ++ t_files x.
(** the version is what follows the only _rar of the path *)
Definition marked (folder : text) (e : exe) : Prop :=
  exists p r, pjoin folder (x_file e) = p ++ str "_rar" ++ (48 + x_major e) :: r /\
  forall p' v' r', pjoin folder (x_file e) = p' ++ str "_rar" ++ v' :: r' -> v' = 48 + x_major e.

Section Search.
Variables (supports : exe -> bool) (s : mt).
(** the numbers of threads of an executable, from low to high *)
Definition thread_list (e : exe) (l : list (option Z)) : Prop :=
  if supports e then exists ns, l = map Some ns /\ StronglySorted Z.lt ns /\ forall n, In n ns <-> allowed s e n else l = [None].
(** for each executable first the files alone, then behind the file before them *)
Inductive attempts (store : list text) (before : option text) : list exe -> list attempt -> Prop :=
| at_nil : attempts store before [] []
| at_exe e es l rest : thread_list e l -> attempts store before es rest ->
    attempts store before (e :: es)
      (map (fun t => mkAtt e t store) l ++ match before with None => [] | Some f => map (fun t => mkAtt e t (f :: store)) l end ++ rest).
End Search.
(** the first attempt that works *)
Definition first_working {A} (ok : A -> Prop) (l : list A) (r : option A) : Prop :=
  match r with
  | None => Forall (fun x => ~ ok x) l
  | Some x => exists a b, l = a ++ x :: b /\ Forall (fun x => ~ ok x) a /\ ok x
  end.
(** the file before, if files were done before *)
Definition file_before (archived : list (text * text)) (prev : option text) (f : option text) : Prop :=
  match prev with
  | None => f = None
  | Some p => archived = [] /\ f = None \/
      exists a src b, archived = a ++ (p, src) :: b /\ Forall (fun x => fst x <> p) a /\ f = Some src
  end.
Definition job_of (method flags split : N) (out : text) (j : job) : Prop :=
  0x30 <= method <= 0x35 /\ j_level j = method - 0x30 /\ j_dict j = str "-md" ++ [65 + N.min 6 (dict_field flags)] /\ (j_solid j = true <-> N.testbit flags 4 = true) /\
  (split = 0 /\ j_split j = None \/ 0 < split /\ j_split j = Some split) /\ j_out j = out.
