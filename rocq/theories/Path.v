(** Path: posixpath functions and the path checks of rescene/utility.py. *)
From Verif Require Import Base.

Definition SLASH : N := 47.
Definition BACKSLASH : N := 92.
Definition DOT : text := str ".".
Definition DOTDOT : text := str "..".

(** str.split(c) for a one character separator; never empty *)
Fixpoint split (c : N) (t : text) : list text :=
  match t with
  | [] => [[]]
  | x :: t' =>
    match split c t' with
    | [] => [[x]] (* not reached *)
    | w :: ws => if x =? c then [] :: w :: ws else (x :: w) :: ws
    end
  end.

(** sep.join(l) *)
Fixpoint join (c : N) (l : list text) : text :=
  match l with
  | [] => []
  | [w] => w
  | w :: l' => w ++ c :: join c l'
  end.

(** str.replace of one character *)
Definition replace1 (a b : N) (t : text) : text := map (fun x => if x =? a then b else x) t.

Definition last_is (c : N) (t : text) : bool :=
  match rev t with x :: _ => x =? c | [] => false end.
Definition first_is (c : N) (t : text) : bool :=
  match t with x :: _ => x =? c | [] => false end.

(** os.path.join(a, b) on POSIX *)
Definition pjoin (a b : text) : text :=
  if first_is SLASH b then b
  else if (lenN a =? 0) || last_is SLASH a then a ++ b
  else a ++ SLASH :: b.

(** os.path.join(a, *l) *)
Definition pjoin_all (a : text) (l : list text) : text := fold_left pjoin l a.

(** str.rstrip("/") *)
Fixpoint drop_slashes (r : text) : text :=
  match r with x :: r' => if x =? SLASH then drop_slashes r' else r | [] => [] end.
Definition rstrip_slash (t : text) : text := rev (drop_slashes (rev t)).

(** the part up to and including the last slash, and the rest, both reversed *)
Fixpoint split_tail (r : text) : text * text :=
  match r with
  | [] => ([], [])
  | x :: r' => if x =? SLASH then ([], r) else let '(t, h) := split_tail r' in (x :: t, h)
  end.

(** os.path.basename / os.path.dirname *)
Definition basename (p : text) : text := rev (fst (split_tail (rev p))).
Definition dirname (p : text) : text :=
  let head := rev (snd (split_tail (rev p))) in
  if forallb (N.eqb SLASH) head then head else rstrip_slash head.

(** os.path.normpath: the component loop, [acc] holds new_comps in reverse *)
Fixpoint norm_comps (abs : bool) (comps acc : list text) : list text :=
  match comps with
  | [] => rev acc
  | c :: cs =>
    if teqb c [] || teqb c DOT then norm_comps abs cs acc
    else if negb (teqb c DOTDOT)
            || (negb abs && match acc with [] => true | _ => false end)
            || match acc with a :: _ => teqb a DOTDOT | [] => false end
         then norm_comps abs cs (c :: acc)
         else match acc with _ :: acc' => norm_comps abs cs acc' | [] => norm_comps abs cs [] end
  end.
Definition initial_slashes (p : text) : N :=
  match p with
  | a :: b :: c :: _ =>
    if a =? SLASH then if (b =? SLASH) && negb (c =? SLASH) then 2 else 1 else 0
  | [a; b] => if a =? SLASH then if b =? SLASH then 2 else 1 else 0
  | [a] => if a =? SLASH then 1 else 0
  | [] => 0
  end.
Definition normpath (p : text) : text :=
  match p with
  | [] => DOT
  | _ =>
    let i := initial_slashes p in
    let q := repN i SLASH ++ join SLASH (norm_comps (0 <? i) (split SLASH p) []) in
    match q with [] => DOT | _ => q end
  end.

(** utility.py:380-393 joinpath(path) with start="": every element must be a plain name *)
Definition bad_elem (e : text) : bool :=
  negb (teqb (dirname e) []) || mem_text e [[]; DOT; DOTDOT; str "/dev/null"].
Definition joinpath (path : list text) : result text :=
  if existsb bad_elem path then Err ValueError else Ok (pjoin_all [] path).

(** rar.py:468-473 _SrrFileNameBlock.os_file_name *)
Definition srr_os_file_name (name : text) : result text :=
  joinpath (split SLASH (replace1 BACKSLASH SLASH name)).
(** rar.py:1217-1224 RarPackedFileBlock.os_file_name *)
Definition rar_os_file_name (name : text) : result text :=
  joinpath (split BACKSLASH name).

(** main.py:203-211 _opath *)
Definition opath (name : text) (extract_paths : bool) (out_folder : text) : result text :=
  do fn <- srr_os_file_name name;
  let fn := if extract_paths then fn else basename fn in
  Ok (pjoin (normpath out_folder) fn).
