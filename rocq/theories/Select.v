(** Select: bin/pyrescene.py, which images of a release are stored.
    A release is a tree of files (Dirs.v); os.walk takes the directories in the order they are listed.  Case is that of ASCII. *)
From Verif Require Import Base Path Glob Verify Dirs.

(** str.endswith *)
Definition ends_in (e n : text) : bool := starts_with N.eqb (rev e) (rev n).
(** bin/pyrescene.py:149-161 get_files, for the pattern "*" + [e] *)
Fixpoint get_files (e path : text) (t : tree) : list text :=
  let '(Dir files dirs) := t in
  map (pjoin path) (filter (fun n => ends_in (lower e) (lower n)) files) ++ concat (map (fun d => get_files e (pjoin path (fst d)) (snd d)) dirs).
(** bin/pyrescene.py:212 PROOF_IMAGE_EXTS *)
Definition PROOF_IMAGE_EXTS : list text := [str ".jpg"; str "jpeg"; str ".png"; str ".bmp"; str ".gif"].

(** bin/pyrescene.py:362-373 strip_zeros *)
Definition begins (l : list text) (n : text) : bool := existsb (fun p => starts_with N.eqb p n) l.
Definition strip_zeros (n : text) : text :=
  if begins [str "00-"; str "00_"; str "01-"; str "01_"] n then dropN 3 n
  else if begins [str "000-"; str "000_"; str "001-"; str "001_"] n then dropN 4 n
  else if begins [str "0000-"; str "0000_"; str "0001-"; str "0001_"] n then dropN 5 n
  else n.
(** os.path.splitext(p)[0] *)
Definition no_ext (p : text) : text := takeN (lenN p - lenN (extension p)) p.
(** x.split("-")[-1] *)
Definition after_dash (n : text) : text := List.last (split 45 n) [].
(** bin/pyrescene.py:251-263 always_skip *)
Definition always_skip (p : text) : bool :=
  existsb (N.eqb 32) (basename p) || ends_in (str "folder") (no_ext (lower p)) ||
  part_of (str "albumartsmall") (basename (lower p)) || starts_with N.eqb (str "albumart_{") (basename (lower p)).

Section Disk.
(** os.path.getsize, fixed_resolution_cover (Image.v) and RarReader: the names of the packed files until the end or a
    ValueError *)
Variables (size : text -> N) (cover : text -> bool) (packed : text -> list text).

(** bin/pyrescene.py:309-333 similar_to_good_name *)
Definition similar1 (p bn : text) : bool :=
  teqb (lower (takeN 10 bn)) (takeN 10 (basename p)) || teqb (lower (takeN 10 (strip_zeros bn))) (takeN 10 (strip_zeros (basename p))) ||
  teqb (after_dash (lower bn)) (after_dash (no_ext p)).
(** bin/pyrescene.py:335-339 collect_known_good_filenames *)
Definition good_names (root : text) (t : tree) : list text :=
  map (fun g => let n := basename g in takeN (lenN n - 4) n)
    (get_files (str ".sfv") root t ++ get_files (str ".nfo") root t ++ get_files (str ".m3u") root t ++ get_files (str ".rar") root t).
(** bin/pyrescene.py:265-307 store_rls_root; the messages are left out *)
Definition store_rls_root (root : text) (t : tree) (p : text) : bool :=
  if begins [str "00"; str "01"; str "001"] (basename p) then true
  else if 100000 <? size p then existsb (similar1 p) (good_names root t) && negb (cover p)
  else false.
(** bin/pyrescene.py:232-250 filter_proof_image_files *)
Definition keep_image (more : bool) (root : text) (t : tree) (p : text) : bool :=
  let l := lower p in
  if part_of (str "proof") l || part_of (str "sample") l || part_of (str "/cover") l || part_of (str "/screenshots") l || part_of (str "/compare") l then true
  else if always_skip p then false
  else more || store_rls_root root t p.
(** bin/pyrescene.py:341-360 filter_proof_rar_files, has_stored_proof_ext *)
Definition keep_rar (p : text) : bool := part_of (str "proof") (lower p) && existsb (fun n => mem_text (lower (last4 n)) PROOF_IMAGE_EXTS) (packed p).
(** bin/pyrescene.py:214-230 get_proof_files *)
Definition get_proof_files (more : bool) (root : text) (t : tree) : list text :=
  filter (keep_image more root t) (concat (map (fun e => get_files e root t) PROOF_IMAGE_EXTS)) ++ filter keep_rar (get_files (str ".rar") root t).
End Disk.
