(** Yenc: decoding of yEnc articles (usenet/yenc.py).  Modelled is the pure Python decoder (HAVE_YENC
    false).  An article is the list of its lines, without line ends. *)
From Verif Require Import Base Crc.

(** yenc.py:56 YDEC_TRANS: 214..255 then 0..213 *)
Definition ydec (b : byte) : byte := n2b (b2n b + 214).

(** bytes.replace for a two byte pattern and a one byte replacement *)
Fixpoint replace2 (a b c : byte) (l : bytes) : bytes :=
  match l with
  | [] => []
  | x :: l1 =>
    match l1 with
    | [] => [x]
    | y :: l2 => if Byte.eqb x a && Byte.eqb y b then c :: replace2 a b c l2 else x :: replace2 a b c l1
    end
  end.
(** yenc.py:96-99 *)
Definition yescapes : list N := [0; 9; 10; 13; 27; 32; 46; 61].
Definition unescape (data : bytes) : bytes :=
  fold_left (fun data i => replace2 x3d (n2b (i + 64)) (n2b i) data) yescapes data.
(** yenc.py:95-100 *)
Definition decode_lines (data : list bytes) : bytes := map ydec (unescape (concat data)).

(** yenc.py:215-229 strip *)
Fixpoint pop_empty (l : list bytes) : list bytes :=
  match l with [] :: l' => pop_empty l' | _ => l end.
Definition undot (l : bytes) : bytes := if starts_with Byte.eqb (bstr "..") l then dropN 1 l else l.
Definition strip (data : list bytes) : list bytes :=
  map undot (rev (pop_empty (rev (pop_empty data)))).

(** yenc.py:196-213 ySplit.  The pattern ([a-zA-Z0-9]+)= matches a whole run of letters and digits in
    front of an equals sign.  [ykey l]: the run at the start of [l] and the text after its equals sign. *)
Definition alnum (b : byte) : bool :=
  let n := b2n b in (48 <=? n) && (n <=? 57) || (65 <=? n) && (n <=? 90) || (97 <=? n) && (n <=? 122).
Fixpoint ykey (l : bytes) : option (bytes * bytes) :=
  match l with
  | [] => None
  | x :: l1 =>
    if alnum x then
      match l1 with
      | y :: l2 => if Byte.eqb y x3d then Some ([x], l2)
                   else option_map (fun kr => (x :: fst kr, snd kr)) (ykey l1)
      | [] => None
      end
    else None
  end.
(** the first match: text before it, key, text after it; [fuel]: at most the length of the line *)
Fixpoint yfind (l : bytes) : option (bytes * bytes * bytes) :=
  match ykey l with
  | Some (k, r) => Some ([], k, r)
  | None =>
    match l with
    | [] => None
    | x :: l' => option_map (fun m => (x :: fst (fst m), snd (fst m), snd m)) (yfind l')
    end
  end.
(** bytes.strip() *)
Definition bspace (b : byte) : bool := let n := b2n b in (n =? 32) || (9 <=? n) && (n <=? 13).
Fixpoint lstrip (l : bytes) : bytes := match l with x :: l' => if bspace x then lstrip l' else l | [] => [] end.
Definition bstrip (l : bytes) : bytes := rev (lstrip (rev (lstrip l))).
Inductive yval := VB (b : bytes) | VI (n : N).
Definition dict := list (bytes * yval).
(** The pairs of the line, the last one first; [n]: at most this many matches (re.split with maxsplit);
    [key]: key of the text in [l]. *)
Fixpoint ypairs (n : nat) (key : bytes) (l : bytes) (acc : dict) : dict :=
  match n with
  | O => (key, VB (bstrip l)) :: acc
  | S n => match yfind l with
           | None => (key, VB (bstrip l)) :: acc
           | Some (before, k, after) => ypairs n k after ((key, VB (bstrip before)) :: acc)
           end
  end.
Definition ySplit (line : bytes) (splits : nat) : dict :=
  match splits with
  | O => []
  | S n => match yfind line with None => [] | Some (_, k, after) => ypairs n k after [] end
  end.
Definition no_limit (line : bytes) : nat := S (length line).
Fixpoint dget (k : bytes) (d : dict) : option yval :=
  match d with [] => None | (k', v) :: d' => if beqb k k' then Some v else dget k d' end.
(** a dictionary used as truth value; None is false too *)
Definition truthy (d : option dict) : bool := match d with Some (_ :: _) => true | _ => false end.

(** yenc.py:156-193 yCheck.  [head i]: the loop over the first ten lines. *)
Definition bstarts (l p : bytes) : bool := starts_with Byte.eqb p l.
(** data[i].find(sub) > 0 *)
Definition finds (l p : bytes) : bool := match find_sub Byte.eqb p l with Some n => 0 <? n | None => false end.
Definition ybegin_dict (line : bytes) : dict :=
  ySplit line (3 + (if finds line (bstr " part=") then 1 else 0) + (if finds line (bstr " total=") then 1 else 0))%nat.
Fixpoint ycheck_head (fuel : nat) (data all : list bytes) : option dict * option dict * list bytes :=
  match fuel, data with
  | O, _ | _, [] => (None, None, all)     (* IndexError: break *)
  | S fuel, line :: rest =>
    if bstarts line (bstr "=ybegin ") then
      match rest with
      | [] => (Some (ybegin_dict line), None, all)  (* IndexError at data[i + 1]: data is kept *)
      | next :: rest' =>
        if bstarts next (bstr "=ypart ") then (Some (ybegin_dict line), Some (ySplit next (no_limit next)), rest')
        else (Some (ybegin_dict line), None, rest)
      end
    else ycheck_head fuel rest all
  end.
(** [rdata]: the lines from the last one on *)
Fixpoint ycheck_tail (fuel : nat) (rdata all : list bytes) : option dict * list bytes :=
  match fuel, rdata with
  | O, _ | _, [] => (None, all)
  | S fuel, line :: rest =>
    if bstarts line (bstr "=yend ") then (Some (ySplit line (no_limit line)), rev rest)
    else ycheck_tail fuel rest all
  end.
Definition yCheck (data : list bytes) : (option dict * option dict * option dict) * list bytes :=
  let '(b, p, data) := ycheck_head 10 data data in
  let '(e, data) := ycheck_tail 10 (rev data) data in
  ((b, p, e), data).

Inductive yexn := CrcError | YencException | Other (e : exn).
Record yresult := mkY {
  y_data : bytes; y_number : Z; y_begin : Z; y_end : Z; y_size : Z; y_filesize : Z; y_name : yval }.

(** yenc.py:67-83 posts without a yEnc header *)
Fixpoint find_begin (fuel : nat) (data : list bytes) : option (option (list bytes)) :=
  match fuel, data with
  | O, _ => Some None
  | S _, [] => None                        (* IndexError *)
  | S fuel, line :: rest =>
    if bstarts line (bstr "begin ") then Some (Some data) else find_begin fuel rest
  end.
Definition join_crlf (l : list bytes) : bytes :=
  match l with [] => [] | x :: r => x ++ concat (map (fun y => bstr (String "013" (String "010" "")) ++ y) r) end.
Definition no_header (data : list bytes) : yexn + bytes :=
  match find_begin 10 data with
  | None => inl (Other IndexError)
  | Some found =>
    let data := match found with Some d => d | None => data end in
    match rev data with
    | [] => inl (Other IndexError)
    | last :: r =>
      if beqb last (bstr "end") then
        match r with
        | [] => inl (Other IndexError)
        | last2 :: r2 => inr (join_crlf (rev (if beqb last2 (bstr "`") then r2 else r)))
        end
      else inr (join_crlf data)
    end
  end.

Section Decode.
(** int(b) and int(b, 16) of Python; None is ValueError *)
Variables (int10 int16 : bytes -> option Z).
Definition to_int (v : option yval) : yexn + Z :=
  match v with
  | None => inl (Other KeyError)
  | Some (VI n) => inr (Z.of_N n)
  | Some (VB b) => match int10 b with Some z => inr z | None => inl (Other ValueError) end
  end.
Definition sbind {A B} (a : yexn + A) (f : A -> yexn + B) : yexn + B := match a with inl e => inl e | inr x => f x end.
(** yenc.py:58-154 decode *)
Definition decode (data : list bytes) (seg_part ignore_crc : bool) : yexn + yresult :=
  let data := strip data in
  match data with
  | [] => inl YencException
  | _ =>
    let '((ybegin, ypart, yend), data) := yCheck data in
    sbind
      (if negb (truthy ybegin) then
         sbind (no_header data) (fun d => inr (d, [(bstr "size", VI (lenN d)); (bstr "name", VB (bstr "UNKNOWN"))]))
       else if truthy yend || seg_part then
         let d := decode_lines data in
         let b := match ybegin with Some b => b | None => [] end in
         if negb seg_part && negb ignore_crc then
           let name := if truthy ypart then bstr "pcrc32" else bstr "crc32" in
           let want := match dget name (match yend with Some e => e | None => [] end) with
                       | Some (VB v) => int16 v | _ => None end in
           match want with
           | Some w => if Z.eqb w (Z.of_N (crc32 d)) then inr (d, b) else inl CrcError
           | None => inl CrcError
           end
         else inr (d, b)
       else inl YencException)
      (fun '(d, b) =>
         sbind
           (if truthy ypart then inr (match ypart with Some p => p | None => [] end, b)
            else match dget (bstr "size") b with
                 | None => inl (Other KeyError)
                 | Some v => inr ([(bstr "begin", VI 1); (bstr "end", v)],
                     match dget (bstr "part") b with Some _ => b | None => (bstr "part", VI 1) :: b end)
                 end)
           (fun '(p, b) =>
         sbind (to_int (dget (bstr "part") b)) (fun num =>
         sbind (to_int (dget (bstr "begin") p)) (fun beg =>
         sbind (to_int (dget (bstr "end") p)) (fun en =>
         sbind (to_int (dget (bstr "size") b)) (fun size =>
         match dget (bstr "name") b with
         | None => inl (Other KeyError)
         | Some name => inr (mkY d num beg en (en - beg + 1) size name)
         end))))))
  end.
End Decode.
