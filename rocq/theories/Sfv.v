(** Sfv: SFV files (rescene/utility.py). *)
From Verif Require Import Base VolName.

Fixpoint drop_while {A} (f : A -> bool) (l : list A) : list A :=
  match l with x :: l' => if f x then drop_while f l' else l | [] => [] end.
Definition rdrop_while {A} (f : A -> bool) (l : list A) : list A := rev (drop_while f (rev l)).
Definition strip {A} (f : A -> bool) (l : list A) : list A := rdrop_while f (drop_while f l).

(** what bytes.strip() takes away *)
Definition bspace (b : byte) : bool := let c := b2n b in ((9 <=? c) && (c <=? 13)) || (c =? 32).
(** what str.strip() takes away, of the characters below 256 *)
Definition uspace (c : N) : bool :=
  ((9 <=? c) && (c <=? 13)) || ((28 <=? c) && (c <=? 32)) || (c =? 133) || (c =? 160).
(** bytes.split(b"\n") *)
Fixpoint split_lf (l : bytes) : list bytes :=
  match l with
  | [] => [[]]
  | b :: l' =>
    match split_lf l' with
    | [] => [[b]] (* not reached *)
    | w :: ws => if b2n b =? 10 then [] :: w :: ws else (b :: w) :: ws
    end
  end.
(** bytes.decode("latin-1") *)
Definition latin1 (l : bytes) : text := map b2n l.
(** text.replace("\t", "    ") *)
Definition expand_tabs (t : text) : text := concat (map (fun c => if c =? 9 then [32; 32; 32; 32] else [c]) t).
(** t[:i] and t[i+1:] for i = t.rindex(c) *)
Fixpoint cut_first (c : N) (r : text) : option (text * text) :=
  match r with
  | [] => None
  | x :: r' => if x =? c then Some ([], r') else
               match cut_first c r' with Some (a, b) => Some (x :: a, b) | None => None end
  end.
Definition cut_last (c : N) (t : text) : result (text * text) :=
  match cut_first c (rev t) with Some (a, b) => Ok (rev b, rev a) | None => Err ValueError end.

Record sfv := mkSfv { e_name : text; e_crc : text }.
(** utility.py:152-167 SfvEntry: r"^[\dA-F]{1,8}$" ignoring case, on text of characters below 256 without
    line breaks *)
Definition crc_char (c : N) : bool := digit c || ((97 <=? lower1 c) && (lower1 c <=? 102)).
Definition sfv_entry (name crc : text) : result sfv :=
  if forallb crc_char crc && (1 <=? lenN crc) && (lenN crc <=? 8)
  then Ok (mkSfv (strip (N.eqb 34) name) (repN (8 - lenN crc) 48 ++ crc))
  else Err ValueError.

(** utility.py:233-242, the try block *)
Definition parse_entry (line : bytes) : result sfv :=
  let t := expand_tabs (latin1 line) in
  do ab <- cut_last 32 t;
  sfv_entry (strip uspace (fst ab)) (drop_while uspace (snd ab)).

(** utility.py:222-246 the loop over the lines *)
Fixpoint parse_lines (ls : list bytes) : result (list sfv * list text * list text) :=
  match ls with
  | [] => Ok ([], [], [])
  | line :: ls =>
    do r <- parse_lines ls;
    let '(es, cs, errs) := r in
    match strip bspace line with
    | [] => Ok (es, cs, errs)
    | _ =>
      match drop_while bspace line with
      | x3b :: _ => Ok (es, latin1 line :: cs, errs)
      | _ =>
        let line := rdrop_while bspace line in
        match parse_entry line with
        | Ok e => Ok (e :: es, cs, errs)
        | Err ValueError => Ok (es, cs, latin1 line :: errs)
        | Err e => Err e
        end
      end
    end
  end.
(** utility.py:203-246 parse_sfv_data *)
Definition parse_sfv_data (file_data : bytes) : result (list sfv * list text * list text) :=
  parse_lines (split_lf (map (fun b => if b2n b =? 13 then x0a else b) file_data)).

(** str.lower on characters below 256 *)
Definition low1 (c : N) : N :=
  if ((65 <=? c) && (c <=? 90)) || ((192 <=? c) && (c <=? 222) && negb (c =? 215)) then c + 32 else c.
Definition low (t : text) : text := map low1 t.
(** str < str *)
Fixpoint text_lt (a b : text) : bool :=
  match a, b with
  | [], [] => false
  | [], _ => true
  | _, [] => false
  | x :: a', y :: b' => (x <? y) || ((x =? y) && text_lt a' b')
  end.
(** r"\.[r-z]\d{2}$" on a lower case extension *)
Definition vol_ext (e : text) : bool :=
  match e with
  | [d; c; a; b] => (d =? 46) && (114 <=? c) && (c <=? 122) && digit a && digit b
  | _ => false
  end.
(** utility.py:169-188 SfvEntry.__lt__, on names of characters below 256 *)
Definition sfv_lt (a b : sfv) : bool :=
  let ext_self := low (last_part 4 (e_name a)) in
  let ext_other := low (last_part 4 (e_name b)) in
  let same_base := teqb (low (cut_end 4 (e_name a))) (low (cut_end 4 (e_name b))) in
  if same_base && negb (teqb ext_self ext_other) then
    if teqb ext_self (str ".rar") then
      if vol_ext ext_other then true else text_lt (e_name a) (e_name b)
    else if teqb ext_other (str ".rar") then
      if vol_ext ext_self then false else text_lt (e_name a) (e_name b)
    else text_lt (e_name a) (e_name b)
  else text_lt (e_name a) (e_name b).
(** utility.py:193-197 SfvEntry.__eq__ *)
Definition sfv_eq (a b : sfv) : bool :=
  teqb (low (e_name a)) (low (e_name b)) && teqb (low (e_crc a)) (low (e_crc b)).

(** sorted(): stable.  CPython's algorithm is not modelled; it does the same wherever [sfv_lt] is an order, and
    up to 63 entries it is the binary form of this insertion. *)
Fixpoint insert (x : sfv) (l : list sfv) : list sfv :=
  match l with [] => [x] | y :: l' => if sfv_lt y x then y :: insert x l' else x :: l end.
Definition sort_sfv (l : list sfv) : list sfv := fold_right insert [] l.
(** utility.py:265-274 filter_sfv_duplicates, the loop over the sorted entries *)
Fixpoint drop_dups (previous : option sfv) (l : list sfv) : list sfv :=
  match l with
  | [] => []
  | e :: l' =>
    match previous with
    | Some p => if sfv_eq e p then drop_dups (Some e) l' else e :: drop_dups (Some e) l'
    | None => e :: drop_dups (Some e) l'
    end
  end.
Definition filter_sfv_duplicates (entries : list sfv) : list sfv := drop_dups None (sort_sfv entries).
