(** NzbAge: NZB files of a certain age (usenet/nzb_age.py).  Lines have a line break only at their end; digits are those of ASCII; the clock is UTC in
    seconds (datetime.now() has also microseconds, which do not change the number of whole days).  The limits are given as numbers. *)
From Verif Require Import Base.

Definition digit (c : N) : bool := (48 <=? c) && (c <=? 57).
(** digits and a quote at the start: digits read so far are at least one if [some] *)
Fixpoint number (some : bool) (v : N) (t : text) : option N :=
  match t with
  | [] => None
  | c :: r => if digit c then number true (v * 10 + (c - 48)) r else if (c =? 34) && some then Some v else None
  end.
Definition key : text := str " date=""".
(** nzb_age.py:43 the regular expression takes the last date of the line *)
Fixpoint date_in (line : text) : option N :=
  match line with
  | [] => None
  | _ :: r =>
    match date_in r with
    | Some d => Some d
    | None => if starts_with N.eqb key line then number false 0 (skipn (length key) line) else None
    end
  end.
(** nzb_age.py:42-46 the first line with a date *)
Fixpoint first_date (lines : list text) : option N :=
  match lines with
  | [] => None
  | l :: r => match date_in l with Some d => Some d | None => first_date r end
  end.
(** str.endswith *)
Definition ends (e t : text) : bool := starts_with N.eqb (rev e) (rev t).
(** last second of the year 9999 for datetime.fromtimestamp; much larger numbers give OverflowError, taken as ValueError here *)
Definition max_date : N := 253402300799.
(** nzb_age.py:48-49 timedelta.days is rounded down *)
Definition matched (start end_ : N) (now date : N) : bool :=
  let days := ((Z.of_N now - Z.of_N date) / 86400)%Z in ((Z.of_N start <? days) && (days <? Z.of_N end_))%Z.
Inductive line_out := Shown (n : text) | Bad (n : text).
Definition folder : Type := list (text * list text).
Record state := mkState { s_lines : list line_out; s_left : folder; s_out : text -> option (list text); s_exn : option exn }.
(** nzb_age.py:36-56 for the files of the folder; [mv]: an output folder is given, which is another one.  os.renames overwrites (that it removes a folder left empty
    is not modelled) *)
Fixpoint main (start end_ now : N) (mv : bool) (f : folder) (out : text -> option (list text)) : state :=
  match f with
  | [] => mkState [] [] out None
  | (n, c) :: r =>
    let keep (m : list line_out) := let s := main start end_ now mv r out in mkState (m ++ s_lines s) ((n, c) :: s_left s) (s_out s) (s_exn s) in
    if ends (str ".nzb") n then
      match first_date c with
      | None => keep [Bad n]
      | Some d =>
        if max_date <? d then mkState [] f out (Some ValueError)
        else if matched start end_ now d then
          if mv then main start end_ now mv r (fun q => if teqb n q then Some c else out q) else keep [Shown n]
        else keep []
      end
    else keep []
  end.
