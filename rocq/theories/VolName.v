(** VolName: RAR volume names (rescene/utility.py).

    The regular expressions are written out as tests on the reversed name.  They are those of Python for names
    of ASCII characters without line breaks: \d and case folding know more characters otherwise, and $ also
    matches before a line break at the end. *)
From Verif Require Import Base.

(** str.lower on ASCII *)
Definition lower1 (c : N) : N := if (65 <=? c) && (c <=? 90) then c + 32 else c.
Definition lower (t : text) : text := map lower1 t.
(** \d *)
Definition digit (c : N) : bool := (48 <=? c) && (c <=? 57).
(** [r] starts with the lower case [p], ignoring case *)
Definition istarts (p r : text) : bool := starts_with (fun a b => a =? lower1 b) p r.
Fixpoint skip_while (f : N -> bool) (r : text) : text :=
  match r with c :: r' => if f c then skip_while f r' else r | [] => [] end.
(** str.endswith *)
Definition ends_with (e t : text) : bool := starts_with N.eqb (rev e) (rev t).
(** t[:-n] and t[-n:] *)
Definition cut_end (n : N) (t : text) : text := rev (dropN n (rev t)).
Definition last_part (n : N) (t : text) : text := rev (takeN n (rev t)).

Definition RAR_REV : text := rev (str ".rar").
(** utility.py:303 r".*\.part\d*.rar$", ignoring case; the dot before rar stands for any character *)
Definition match_part (rfile : text) : bool :=
  let r := rev rfile in
  istarts (rev (str "rar")) r &&
  match dropN 3 r with
  | _ :: r' => istarts (rev (str ".part")) (skip_while digit r')
  | [] => false
  end.
(** utility.py:305 r".*\.rar$", ignoring case *)
Definition match_rar (rfile : text) : bool := istarts RAR_REV (rev rfile).

(** utility.py:312-324 is_rar: r".*\.(rar|[r-z]\d{2}|\d{3})$", ignoring case *)
Definition is_rar (file_name : text) : bool :=
  match_rar file_name ||
  match rev file_name with
  | c3 :: c2 :: c1 :: d :: _ =>
    (d =? 46) && digit c3 && digit c2 &&
    (digit c1 || ((114 <=? lower1 c1) && (lower1 c1 <=? 122)))
  | _ => false
  end.

(** utility.py:292-301 inc, on the reversed list, starting at its last element *)
Fixpoint inc_rev (r : text) : result text :=
  match r with
  | [] => Ok []
  | c :: r' =>
    if c =? 57 then do t <- inc_rev r'; Ok (48 :: t)
    else if c + 1 <? 0x110000 then Ok (c + 1 :: r') else Err ValueError
  end.
Definition inc (extension : text) : result text :=
  match rev extension with
  | [] => Err IndexError
  | _ :: r' =>
    (* nines only: the index goes on at -1, the last element, then a zero *)
    if forallb (N.eqb 57) extension then Ok (rev (49 :: map (fun _ => 48) r'))
    else do r <- inc_rev (rev extension); Ok (rev r)
  end.

(** utility.py:284-310 next_archive *)
Definition next_archive (rfile : text) (is_old : bool) : result text :=
  if match_part rfile && negb is_old then
    do a <- inc (cut_end 4 rfile); Ok (a ++ last_part 4 rfile)
  else if match_rar rfile then Ok (cut_end 4 rfile ++ str ".r00")
  else if negb (is_rar rfile) then Err AttributeError
  else inc rfile.

(** utility.py:326-337 is_first.  The expression
    .*((\.part0*1\.rar|(?<!\d)\.rar)|((^|[^\d])(?<!part)(\d+\.rar)))$, ignoring case *)
Definition is_first (rar : text) : bool :=
  let r := rev rar in
  (istarts RAR_REV r &&
   let r := dropN 4 r in
   (match r with c :: r' => (c =? 49) && istarts (rev (str ".part")) (skip_while (N.eqb 48) r') | [] => false end ||
    match r with c :: _ => negb (digit c) | [] => true end ||
    match r with c :: _ => digit c && negb (istarts (rev (str "part")) (skip_while digit r)) | [] => false end))
  || ends_with (str ".000") rar || ends_with (str ".001") rar.

(** list.remove *)
Fixpoint remove1 (x : text) (l : list text) : list text :=
  match l with [] => [] | y :: l' => if teqb y x then l' else y :: remove1 x l' end.
(** utility.py:346-352: the filter object walks over the list by index while elements are taken out of it *)
Fixpoint drop_001 (fuel i : nat) (firsts : list text) : list text :=
  match fuel with
  | O => firsts
  | S fuel =>
    match nth_error firsts i with
    | None => firsts
    | Some first =>
      drop_001 fuel (S i)
        (if ends_with (str ".000") first then remove1 (cut_end 1 first ++ str "1") firsts else firsts)
    end
  end.
(** utility.py:326-366 first_rars *)
Definition first_rars (input_files : list text) : list text :=
  let firsts := filter is_first input_files in
  let firsts := drop_001 (length firsts) 0 firsts in
  match firsts with
  | _ :: _ => firsts
  | [] =>
    let firsts := filter (fun f => ends_with (str ".rar") (lower f)) input_files in
    let have := filter (fun f => mem_text (cut_end 3 f ++ str "r00") input_files) firsts in
    match have with
    | _ :: _ => have
    | [] => if 1 <? lenN input_files then [] else firsts
    end
  end.
