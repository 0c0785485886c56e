(** Rarexe: the RAR executables tried for compressed archives and their thread counts, and the name of the
    application (rescene/main.py). *)
From Verif Require Import Base VolName.

(** ** Names of executables *)
Record exe := mkExe { x_file : text; x_date : text; x_major : N; x_minor : N }.
Fixpoint text_lt (a b : text) : bool :=
  match a, b with
  | [], [] => false
  | [], _ => true
  | _, [] => false
  | x :: a, y :: b => (x <? y) || ((x =? y) && text_lt a b)
  end.
Fixpoint all_digits (n : nat) (t : text) : option (text * text) :=
  match n, t with
  | O, _ => Some ([], t)
  | S n, c :: t => if digit c then match all_digits n t with Some (a, b) => Some (c :: a, b) | None => None end else None
  | S _, [] => None
  end.
Definition lit (p t : text) : option text := if starts_with N.eqb p t then Some (skipn (length p) t) else None.
Definition obind {A B} (a : option A) (f : A -> option B) : option B := match a with Some x => f x | None => None end.
(** main.py:1782-1797 RarExecutable.__init__: re.match of \d{4}-\d{2}-\d{2}_rar\d\d\d and a part that can be
    empty; None is ValueError.  Only the ASCII digits are modelled; \d takes others too. *)
Definition parse_exe (file : text) : option exe :=
  obind (all_digits 4 file) (fun '(y, t) =>
  obind (lit (str "-") t) (fun t => obind (all_digits 2 t) (fun '(m, t) =>
  obind (lit (str "-") t) (fun t => obind (all_digits 2 t) (fun '(d, t) =>
  obind (lit (str "_rar") t) (fun t => obind (all_digits 3 t) (fun '(v, _) =>
  match v with
  | [a; b; c] => Some (mkExe file (y ++ str "-" ++ m ++ str "-" ++ d) (a - 48) ((b - 48) * 10 + (c - 48)))
  | _ => None
  end))))))).
(** main.py:1838-1843 __lt__ and list.sort (stable) *)
Fixpoint insert_exe (x : exe) (l : list exe) : list exe :=
  match l with [] => [x] | y :: l' => if text_lt (x_date y) (x_date x) then y :: insert_exe x l' else x :: l end.
Definition sort_exes (l : list exe) : list exe := fold_right insert_exe [] l.
(** main.py:1744-1751 load_rar_executables; [files] is os.listdir *)
Definition load_exes (files : list text) : list exe :=
  sort_exes (flat_map (fun f => match parse_exe f with Some e => [e] | None => [] end) files).
(** main.py:1762-1780 get_rar_executables; [previous] is good_rar of the first of archived_files, if any *)
Definition get_exes (exes : list exe) (previous : option exe) (date : text) : list exe :=
  let before := filter (fun e => text_lt (x_date e) date) exes in
  let after := filter (fun e => negb (text_lt (x_date e) date)) exes in
  let previous := match previous with Some e => [e] | None => [] end in
  match after with
  | a :: after => previous ++ [a] ++ rev before ++ after
  | [] => previous ++ rev before
  end.

(** ** Thread counts *)
(** main.py:1814-1836 max_thread_count and min_thread_count *)
Definition old_mt (e : exe) : bool := (x_major e <? 4) || ((x_major e =? 4) && (x_minor e <? 20)).
Definition max_threads (e : exe) : Z := if old_mt e then 16 else 32.
Definition min_threads (e : exe) : Z := if old_mt e then 0 else 1.
(** main.py:1177-1182 *)
Record mt := mkMt { mt_set : list Z; mt_min : Z; mt_max : Z }.
Definition in_range (lo hi mtcount count : Z) : bool := ((lo <=? count) && (count <=? hi) && (count <=? mtcount))%Z.
(** main.py:1885-1929 increase_thread_count.  [threads] is the number in self.threads, None the empty
    string; the result is the new number, None for False. *)
Definition increase (s : mt) (e : exe) (threads : option Z) : option Z :=
  let mtcount := max_threads e in
  let lo := if (0 <? mt_min s)%Z then mt_min s else min_threads e in
  let hi := if (0 <? mt_max s)%Z then mt_max s else mtcount in
  match threads with
  | None =>
    match mt_set s with
    | [] => if (lo <=? mtcount)%Z then Some lo else None
    | set => find (in_range lo hi mtcount) set
    end
  | Some c =>
    match mt_set s with
    | [] => if ((c <? mtcount) && (c <? hi))%Z then Some (c + 1)%Z else None
    | set => find (fun n => in_range lo hi mtcount n && (c <? n)%Z) set
    end
  end.
(** main.py:2430: the counts tried by the while loop when none works; None when [fuel] is too low *)
Fixpoint tries (fuel : nat) (s : mt) (e : exe) (threads : option Z) : option (list Z) :=
  match fuel with
  | O => None
  | S fuel =>
    match increase s e threads with
    | None => Some []
    | Some c => option_map (cons c) (tries fuel s e (Some c))
    end
  end.

(** ** The name of the application *)
(** main.py:158-163 change_rescene_name_version with a str; AttributeError if the name is too long *)
Definition change_name (name : text) : result text :=
  if 0xFFF6 <? lenN name then Err AttributeError else Ok name.
