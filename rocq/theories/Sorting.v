(** Sorting: bin/srr_sort.py, the SRR files that are listed or moved.  The options -m, -v, -d and -l, which look at info() and at the name of the file, are left out. *)
From Verif Require Import Base Rar Verify.

(** for block in RarReader(srr_file): [f] gives the next state, or the result of the function if it returns in the loop *)
Fixpoint scan {S A} (fuel : nat) (m : mode) (data : bytes) (st : rst) (f : S -> block -> result (S + A)) (s : S) : result (S + A) :=
  match fuel with
  | O => Err OutOfFuel
  | Datatypes.S fuel =>
    do r <- read1 m data st;
    match r with
    | None => Ok (inl s)
    | Some (b, st') => do x <- f s b; match x with inl s => scan fuel m data st' f s | inr a => Ok (inr a) end
    end
  end.
Definition for_blocks {S A} (data : bytes) (f : S -> block -> result (S + A)) (s : S) : result (S + A) :=
  do m <- reader_mode data; scan (Datatypes.S (List.length data)) m data st0 f s.
(** loops without state: [f] is the value that is returned; [dflt] is returned after the loop *)
Definition search (data : bytes) (f : block -> result (option bool)) (dflt : bool) : result bool :=
  do x <- for_blocks data (fun _ b => do r <- f b; Ok (match r with Some a => inr a | None => inl tt end)) tt;
  Ok (match x with inl _ => dflt | inr a => a end).

(** block.file_name of a stored file and of a volume, if the block has that rawtype; a block of 7 bytes has no such attribute *)
Definition stored_name (b : block) : result (option text) :=
  if b_type b =? T_SrrStored then match b_kind b with KStored _ n => Ok (Some n) | _ => Err AttributeError end else Ok None.
Definition rar_name (b : block) : result (option text) :=
  if b_type b =? T_SrrRarFile then match b_kind b with KRarFile n => Ok (Some n) | _ => Err AttributeError end else Ok None.
Definition on_stored (p : text -> bool) (v : bool) (b : block) : result (option bool) :=
  do n <- stored_name b; Ok (match n with Some n => if p n then Some v else None | None => None end).

(** srr_sort.py:43-48 *)
Definition check_compression (data : bytes) : result bool :=
  search data (fun b =>
    if b_type b =? T_RarFile then
      match b_kind b with KFile f => Ok (if f_method f =? COMPR_STORING then None else Some true) | _ => Err AttributeError end
    else Ok None) false.
(** srr_sort.py:50-54 *)
Definition check_empty (data : bytes) : result bool := search data (fun b => Ok (if b_type b =? T_RarFile then Some false else None)) true.
(** srr_sort.py:56-64 *)
Definition IMAGES : list text := [str ".jpg"; str ".png"; str ".bmp"; str ".gif"; str "jpeg"].
Definition part_of (a b : text) : bool := match find_sub N.eqb a b with Some _ => true | None => false end.
Definition check_image (noproof : bool) (data : bytes) : result bool :=
  search data (fun b =>
    do n <- stored_name b;
    Ok (match n with
        | Some n => if mem_text (extension n) IMAGES then if noproof && part_of (str "proof") (lower n) then Some false else Some true else None
        | None => None
        end)) false.
(** srr_sort.py:66-73 *)
Definition check_repack (data : bytes) : result bool :=
  search data (fun b =>
    do n <- rar_name b;
    Ok (match n with Some n => if existsb (fun k => part_of k n) [str "rpk"; str "repack"; str "-r.part01.rar"; str "-r.rar"] then Some true else None | None => None end)) false.
(** srr_sort.py:75-81: the count begins anew with each block *)
Definition check_nfos (data : bytes) : result bool :=
  do x <- for_blocks (A := bool) data (fun _ b =>
    do n <- stored_name b;
    Ok (inl (Some (match n with Some n => if teqb (lower (dropN (lenN n - 4) n)) (str ".nfo") then 1 else 0 | None => 0 end)))) None;
  match x with
  | inl (Some c) => Ok (negb (c <=? 1))
  | inl None => Err UnboundLocal
  | inr a => Ok a
  end.
(** srr_sort.py:83-90 *)
Definition check_duplicates (data : bytes) : result bool :=
  do x <- for_blocks data (fun found b =>
    do n <- stored_name b;
    Ok (match n with Some n => if mem_text n found then inr true else inl (found ++ [n]) | None => inl found end)) [];
  Ok (match x with inl _ => false | inr a => a end).
(** srr_sort.py:92-97 *)
Definition check_for_possible_nonscene (data : bytes) : result bool :=
  search data (fun b => do n <- rar_name b; Ok (match n with Some n => if teqb n (lower n) then None else Some true | None => None end)) false.
(** srr_sort.py:99-103 *)
Definition check_availability_stored_files (data : bytes) : result bool := search data (fun b => Ok (if b_type b =? T_SrrStored then Some false else None)) true.
(** srr_sort.py:105-117 *)
Definition has_ext (e n : text) : bool := starts_with N.eqb (rev e) (rev (lower n)).
Definition check_for_no_ext (data : bytes) (e : text) : result bool := search data (on_stored (has_ext e) false) true.
Definition check_for_ext (data : bytes) (e : text) : result bool := search data (on_stored (has_ext e) true) false.

(** srr_sort.py:121-182 check: each option adds to the result; an exception is printed and the file is neither moved nor listed *)
Record options := mkOptions { o_compressed : bool; o_empty : bool; o_image : bool; o_noproof : bool; o_repack : bool; o_nfos : bool; o_duplicates : bool; o_p2p : bool; o_nofiles : bool;
  o_nosfv : bool; o_nonfo : bool; o_txt : bool }.
Definition or_if (o : bool) (c : result bool) (r : result bool) : result bool := do r <- r; if o then do x <- c; Ok (r || x) else Ok r.
Definition check (o : options) (data : bytes) : result bool :=
  or_if (o_txt o) (check_for_ext data (str ".txt"))
  (or_if (o_nonfo o) (check_for_no_ext data (str ".nfo"))
  (or_if (o_nosfv o) (check_for_no_ext data (str ".sfv"))
  (or_if (o_nofiles o) (check_availability_stored_files data)
  (or_if (o_p2p o) (check_for_possible_nonscene data)
  (or_if (o_duplicates o) (check_duplicates data)
  (or_if (o_nfos o) (check_nfos data)
  (or_if (o_repack o) (check_repack data)
  (or_if (o_image o || o_noproof o) (check_image (o_noproof o) data)
  (or_if (o_empty o) (check_empty data)
  (or_if (o_compressed o) (check_compression data) (Ok false))))))))))).
