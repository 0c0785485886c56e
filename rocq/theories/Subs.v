(** Subs: SRR files for vobsubs (bin/pyrescene.py). *)
From Verif Require Import VolName Base Path Info Wanted NzbFix.

(** A file with what unrar extracts from it, or from the set it is the first volume of; [None]: extracting fails. *)
Inductive node := Node (data : bytes) (inside : option (list (text * node))).
(** An SRR file: the first volume of its set, and the SRR files stored in it with their paths. *)
Inductive srrt := Srr (first : text) (stored : list (text * srrt)).

Fixpoint assoc {A} (k : text) (l : list (text * A)) : option A :=
  match l with [] => None | (n, v) :: l => if teqb n k then Some v else assoc k l end.

Section Subs.
(** str.encode("utf-8", "replace") *)
Variable enc : text -> bytes.
(** bin/pyrescene.py:747 *)
Definition is_idx (n : text) : bool := teqb (lower (last_part 4 n)) (str ".idx").
(** bin/pyrescene.py:747-758: what is written to languages.diz for one .idx file *)
Definition idx_section (name : text) (data : bytes) : bytes :=
  enc (str "# " ++ name ++ [10]) ++ concat (filter (starts_with Byte.eqb (bstr "id: ")) (readlines data)).
(** bin/pyrescene.py:745-758; os.listdir gives the files unrar has put there, without folders (option -ep) *)
Definition languages (items : list (text * node)) : bytes :=
  concat (map (fun n => if is_idx n then match assoc n items with Some (Node d _) => idx_section n d | None => [] end else []) (sort_text (map fst items))).

(** the SRR files in a folder: those made, the last one first *)
Record acc := mkAcc { c_diz : bytes; c_res : list text; c_files : list (text * srrt) }.
(** the results of the recursive call for each file of the folder: [None] if extracting fails *)
Definition kid : Type := option (bytes * list (text * srrt)).
(** bin/pyrescene.py:715-785, the loop over the first volumes; [name_of]: lines 718-719 and 764-778.  The folder made for
    the extracted files is a new one; making it and create_srr do not fail.  No extracted file has the name of an SRR file
    that is made beside it. *)
Definition step_rar (name_of : text -> text) (kids : list (text * kid)) (a : acc) (fr : text) : acc :=
  match assoc fr kids with
  | Some (Some (d, stored)) => mkAcc (c_diz a ++ d) (c_res a ++ [name_of fr]) ((name_of fr, Srr fr stored) :: c_files a)
  | _ => a
  end.
(** the paths returned, with what these files are when the caller stores them *)
Definition found (a : acc) : list (text * srrt) :=
  concat (map (fun p => match assoc p (c_files a) with Some t => [(p, t)] | None => [] end) (c_res a)).
Definition create_loop (name_of : text -> text) (kids : list (text * kid)) (firsts : list text) : acc :=
  fold_left (step_rar name_of kids) firsts (mkAcc [] [] []).
(** bin/pyrescene.py:718-719 os.path.basename(fr)[:-4] + ".srr" *)
Definition srr_base (fr : text) : text := cut_end 4 (basename fr) ++ str ".srr".
(** bin/pyrescene.py:687-787 extract_and_create_srr, one archive with the recursive step; the paths are below the folder
    for the extracted files *)
Fixpoint extract (n : node) : kid :=
  match n with
  | Node _ None => None
  | Node _ (Some items) =>
    let a := create_loop srr_base (map (fun x => (fst x, extract (snd x))) items) (first_rars (map fst items)) in
    Some (languages items ++ c_diz a, found a)
  end.

(** bin/pyrescene.py:791-803: the first volumes of an SFV file *)
Definition start_rars (isfile : text -> bool) (entries : text -> list text) (sfv : text) : list text :=
  match get_start_rar_files entries [sfv] with
  | [] =>
    let base := cut_end 4 sfv in
    if isfile (base ++ str ".rar") then [base ++ str ".rar"]
    else if isfile (base ++ str ".part1.rar") then [base ++ str ".part1.rar"]
    else if isfile (base ++ str ".part01.rar") then [base ++ str ".part01.rar"]
    else if isfile (base ++ str ".001") then [base ++ str ".001"]
    else []
  | l => l
  end.
(** bin/pyrescene.py:764-776 for the first level *)
Definition srr_path (srr_out : text) (firsts : list text) (fr : text) : text :=
  if 1 <? lenN firsts then pjoin (dirname srr_out) (srr_base fr) else srr_out.
(** bin/pyrescene.py:789-824 create_srr_for_subs: the SRR files with their paths, the languages.diz that is stored in the
    first of them, and the languages.diz in the working directory afterwards.  [diz]: the one that is there before.
    [firsts]: the result of start_rars; [srr_out]: the SFV file in the working directory with .srr (lines 676-683, 814).
    Encoding a header never gives an empty string. *)
Definition create_srr_for_subs (srr_out : text) (world : list (text * node)) (firsts : list text) (diz : option bytes)
  : list (text * srrt) * option bytes * option bytes :=
  let a := create_loop (srr_path srr_out firsts) (map (fun x => (fst x, extract (snd x))) world) firsts in
  let diz := match c_diz a with [] => diz | d => Some (match diz with Some o => o | None => [] end ++ d) end in
  (found a, match found a with [] => None | _ => diz end, diz).

(** bin/pyrescene.py:1134-1155 generate_srr, for the SFV files one after the other: languages.diz stays in the working directory *)
Fixpoint all_subs (world : list (text * node)) (sfvs : list (text * list text)) (diz : option bytes)
  : list (list (text * srrt) * option bytes) :=
  match sfvs with
  | [] => []
  | (srr_out, firsts) :: sfvs =>
    let '(srrs, lang, diz) := create_srr_for_subs srr_out world firsts diz in
    (srrs, lang) :: all_subs world sfvs diz
  end.
End Subs.
