(** NzbFix: repairing NZB files that cannot be parsed (usenet/nzb_utils.py). *)
From Verif Require Import Base.

(** [f]+; at the start of the text *)
Fixpoint run_semi (f : N -> bool) (seen : bool) (l : bytes) : bool :=
  match l with
  | [] => false
  | b :: l => if f (b2n b) then run_semi f true l else seen && (b2n b =? 59)
  end.
Definition low_letter (c : N) : bool := (97 <=? c) && (c <=? 122).
Definition dec_digit (c : N) : bool := (48 <=? c) && (c <=? 57).
Definition low_hex (c : N) : bool := dec_digit c || ((97 <=? c) && (c <=? 102)).
(** nzb_utils.py:44 the inner part of XML_AMP_FIX: (?:[a-z]+|#[0-9]+|#x[0-9a-f]+); *)
Definition entity_next (l : bytes) : bool :=
  run_semi low_letter false l ||
  match l with
  | h :: l1 => (b2n h =? 35) && (run_semi dec_digit false l1 || match l1 with x :: l2 => (b2n x =? 120) && run_semi low_hex false l2 | [] => false end)
  | [] => false
  end.
(** nzb_utils.py:50 re.sub(XML_AMP_FIX, b"&amp;", line) *)
Fixpoint fix_amp (l : bytes) : bytes :=
  match l with
  | [] => []
  | b :: l => if (b2n b =? 38) && negb (entity_next l) then bstr "&amp;" ++ fix_amp l else b :: fix_amp l
  end.
(** nzb_utils.py:51-52 re.sub(b"&ouml;", b"\xF6", line); [skip]: bytes of a match that are still to pass *)
Fixpoint sub_ouml (skip : nat) (l : bytes) : bytes :=
  match l with
  | [] => []
  | b :: l' =>
    match skip with
    | S k => sub_ouml k l'
    | O => if starts_with Byte.eqb (bstr "&ouml;") l then xf6 :: sub_ouml 5 l' else b :: sub_ouml 0 l'
    end
  end.
(** nzb_utils.py:50-54 *)
Definition fix_line (l : bytes) : bytes := filter (fun b => negb (b2n b =? 0)) (sub_ouml 0 (fix_amp l)).

(** file.readlines(): lines with their newlines *)
Fixpoint readlines (l : bytes) : list bytes :=
  match l with
  | [] => []
  | b :: l =>
    if b2n b =? 10 then [b] :: readlines l
    else match readlines l with [] => [[b]] | w :: ws => (b :: w) :: ws end
  end.
Definition END_TAG : bytes := bstr "</nzb>".
Definition has_tag (l : bytes) : bool := match find_sub Byte.eqb END_TAG l with Some _ => true | None => false end.
(** nzb_utils.py:49-62 the loop over the lines: what is written, and nzb_end_tag *)
Fixpoint fix_lines (previous : bytes) (ls : list bytes) : bytes * bool :=
  match ls with
  | [] => ([], false)
  | line :: ls =>
    let line := fix_line line in
    let tag := has_tag line in
    let line := if tag && beqb previous line then [] else line in
    let '(o, t) := fix_lines line ls in
    (line ++ o, tag || t)
  end.
(** nzb_utils.py:45-65 *)
Definition fix_nzb (data : bytes) : bytes :=
  let '(o, t) := fix_lines [] (readlines data) in
  if t then o else o ++ END_TAG.

Section Read.
(** pynzb.nzb_parser.parse: the files of an NZB document *)
Variable A : Type.
Variable parse : bytes -> result (list A).
(** nzb_utils.py:27-71 read_nzb, for a file that can be opened *)
Definition read_nzb (data : bytes) : result (list A) :=
  match parse data with
  | Ok l => Ok l
  | Err _ => let f := fix_nzb data in if lenN f =? 0 then Ok [] else parse f
  end.
End Read.
