(** Preprar: the names for RAR executables taken out of installers (bin/preprardir.py). *)
From Verif Require Import VolName.
From Verif Require Import Base Rar Rarexe.

(** Ways an expression can match, the preferred one first: what was taken and the rest *)
Definition pat : Type := text -> list (text * text).
Definition p_lit (p : text) : pat := fun t => match lit p t with Some r => [(p, r)] | None => [] end.
Definition p_char (f : N -> bool) : pat := fun t => match t with c :: r => if f c then [([c], r)] else [] | [] => [] end.
Definition p_seq (p q : pat) : pat := fun t => flat_map (fun x => map (fun y => (fst x ++ fst y, snd y)) (q (snd x))) (p t).
Definition p_opt (p : pat) : pat := fun t => p t ++ [([], t)].
Definition p_bind {A} (p : pat) (k : text -> text -> list A) : text -> list A := fun t => flat_map (fun x => k (fst x) (snd x)) (p t).
Definition alpha (c : N) : bool := ((65 <=? c) && (c <=? 90)) || ((97 <=? c) && (c <=? 122)).
Fixpoint skip_alpha (t : text) : text := match t with c :: r => if alpha c then skip_alpha r else t | [] => [] end.
Definition p_beta : pat := p_opt (p_seq (p_lit (str "b")) (p_char digit)).
(** preprardir.py:195-209 VersionTag, without x64, which is not used *)
Record tag := mkTag { t_large : N; t_small : N; t_beta : text }.
Definition num (t : text) : N := fold_left (fun a c => 10 * a + (c - 48)) t 0.
Definition new_tag (large small beta : text) : tag := mkTag (num large) (num small) beta.
(** preprardir.py:213-221.  The letters cannot be less than all, since no letter follows in the expression; names have no
    line breaks. *)
Definition win_tag (t : text) : list tag :=
  match t with
  | c :: _ =>
    if alpha c then
      p_bind (p_opt (p_lit (str "-x64-"))) (fun _ => p_bind (p_char digit) (fun large => p_bind (p_seq (p_char digit) (p_opt (p_char digit))) (fun small =>
      p_bind p_beta (fun beta rest => match rest with [] => [] | _ => [new_tag large (if lenN small =? 1 then small ++ str "0" else small) beta] end)))) (skip_alpha t)
    else []
  | [] => []
  end.
(** preprardir.py:222-232 *)
Definition nix_tag (t : text) : list tag :=
  p_bind (p_lit (str "rar")) (fun _ => p_bind (fun t => p_lit (str "osx") t ++ p_lit (str "linux") t ++ p_lit (str "bsd") t) (fun _ =>
  p_bind (p_lit (str "-")) (fun _ => p_bind (p_opt (p_lit (str "x64-"))) (fun _ => p_bind (p_char digit) (fun large => p_bind (p_lit (str ".")) (fun _ =>
  p_bind (p_seq (p_char digit) (p_opt (p_seq (p_lit (str ".")) (p_char digit)))) (fun small => p_bind (p_opt (p_lit (str "."))) (fun _ => p_bind p_beta (fun beta =>
  p_bind (p_lit (str ".tar")) (fun _ => p_bind (p_char (fun _ => true)) (fun _ => p_bind (p_lit (str "gz")) (fun _ _ =>
    [new_tag large (if lenN small =? 1 then small ++ str "0" else filter (fun c => negb (c =? 46)) small) beta])))))))))))) t.
(** preprardir.py:211-233 versiontag *)
Definition versiontag (t : text) : option tag :=
  match win_tag t with
  | x :: _ => Some x
  | [] => match nix_tag t with x :: _ => Some x | [] => None end
  end.
(** "%02d" of a number below 100, "%d" of one of four digits and of one digit *)
Definition d2 (n : N) : text := [48 + n / 10; 48 + n mod 10].
Definition d4 (n : N) : text := d2 (n / 100) ++ d2 (n mod 100).
(** preprardir.py:208-209 __str__ *)
Definition tag_text (v : tag) : text := [48 + t_large v] ++ d2 (t_small v) ++ t_beta v.

(** An installer: the files in it with their times, if it is a RAR file with or without an SFX module; the date of
    rar/rar by strftime, if it is a TAR file *)
Inductive content := CRar (files : list (text * N)) | CTar (date : text) | COther.
Definition RAR_NAMES : list text := [str "Rar.exe"; str "Rar.Exe"; str "rar\rar"; str "rar"].
Definition ends (e t : text) : bool := VolName.ends_with e t.
(** preprardir.py:178-193 get_rar_date_name, the date; a file that is no RAR file is an error of RarReader *)
Definition rar_date (stamp : N) : text := let '(y, m, d, _, _, _) := parse_dos_time stamp in d4 y ++ str "-" ++ d2 m ++ str "-" ++ d2 d.
Definition get_date (file_name : text) (c : content) : result (option text) :=
  if ends (str ".exe") file_name || ends (str ".sfx") file_name then
    match c with
    | CRar files => Ok (match find (fun x => mem_text (fst x) RAR_NAMES) files with Some (_, stamp) => Some (rar_date stamp) | None => None end)
    | _ => Err ValueError
    end
  else match c with CTar date => Ok (Some date) | _ => Ok None end.
Definition inside_b (a b : text) : bool := match find_sub N.eqb a b with Some _ => true | None => false end.
(** preprardir.py:112-176 extract_rarbin: the name of the executable for one installer, [None]: none.  Extracting works.
    ".exe" in the name makes that it ends so in what follows, or there is no date. *)
Definition new_name (enable_beta : bool) (fname : text) (c : content) : result (option text) :=
  match versiontag fname with
  | None => Ok None
  | Some v =>
    if negb (inside_b (str ".exe") fname) && negb (inside_b (str ".tar.gz") fname) && negb (inside_b (str ".sfx") fname) then Ok None
    else if t_large v <? 2 then Ok None
    else if negb enable_beta && negb (lenN (t_beta v) =? 0) then Ok None
    else
      do date <- get_date fname c;
      match date with
      | None => Ok None
      | Some date =>
        match c with
        | CTar _ => Ok (Some (date ++ str "_rar" ++ tag_text v))
        | _ => Ok (Some (date ++ str "_rar" ++ tag_text v ++ (if inside_b (str ".sfx") fname then [] else str ".exe")))
        end
      end
  end.
(** the folder afterwards: the executables by name and the installer they come from; os.rename replaces on Linux *)
Definition put_exe (k v : text) (d : list (text * text)) : list (text * text) := (k, v) :: filter (fun x => negb (teqb (fst x) k)) d.
Fixpoint extract_all (enable_beta : bool) (l : list (text * content)) (d : list (text * text)) : result (list (text * text)) :=
  match l with
  | [] => Ok d
  | (fname, c) :: l =>
    do n <- new_name enable_beta fname c;
    extract_all enable_beta l (match n with Some n => put_exe n fname d | None => d end)
  end.
