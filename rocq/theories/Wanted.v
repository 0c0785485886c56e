(** Wanted: bin/pyrescene.py, the SFV files of the main archives. *)
From Verif Require Import VolName Base Path Dirs Select.

(** the characters after a match of re.match *)
Definition any : re := Many (One (fun _ => true)).
Definition dots : re := Many dot.
(** bin/pyrescene.py:468: ^000?-|.*(cd\d|flac).* *)
Definition MUSIC_OR_CD (n : text) : bool :=
  icase (Or (Then (word "00") (Then (maybe (word "0")) (Then (word "-") any))) (Then dots (Then (Or (Then (word "cd") digit) (word "flac")) any))) n.
(** bin/pyrescene.py:524: .*Subs.?CD\d$ *)
Definition SUBS_CD (d : text) : bool := icase (Then dots (Then (word "subs") (Then (maybe dot) (Then (word "cd") (Then digit eol))))) d.
(** bin/pyrescene.py:481-485 *)
Definition EXTRA_DIRS : list text :=
  [str "subs"; str "vobsubs"; str "vobsub"; str "subtitles"; str "sub"; str "czsubs"; str "subpack"; str "vobsubs-full"; str "vobsubs-light"; str "codec"; str "codecs"; str "cover"; str "covers"].

(** w in rel *)
Definition has (w : string) (rel : text) : bool := part_of (str w) rel.
Section Disk.
(** the names in an SFV file, os.path.isfile, and RarReader: the names of the packed files, and whether a ValueError ends
    them *)
Variables (entries : text -> list text) (isfile : text -> bool) (packed : text -> list text * bool).
(** bin/pyrescene.py:494-522: [true] for continue *)
Definition proof_sfv (sfv : text) : bool :=
  match entries sfv with
  | [f] =>
    let rar := pjoin (dirname sfv) f in
    if ends_in (str ".rar") rar then
      if isfile rar then
        let '(names, failed) := packed rar in
        failed || fold_left (fun _ n => mem_text (lower (last4 n)) PROOF_IMAGE_EXTS) names false
      else true
    else true
  | _ => false
  end.
(** bin/pyrescene.py:437-544: whether the loop comes to its end *)
Definition wanted (release_dir sfv : text) : bool :=
  let rel := lower (basename release_dir) in
  let n := lower (basename sfv) in
  let dir := lower (basename (dirname sfv)) in
  if (part_of (str "vobsub") n || part_of (str "subtitle") n) && negb (has "subpack" rel) && negb (has "vobsub" rel) && negb (has "subtitle" rel) && negb (has "sub.pack" rel) then false
  else if part_of (str "subs") n &&
      negb (MUSIC_OR_CD (basename sfv) || has "subs" rel || has "subpack" rel || has "vobsub" rel || has "subtitle" rel || has "subfix" rel || has "sub.pack" rel) then false
  else if mem_text dir EXTRA_DIRS then false
  else if (teqb dir (str "proof") || teqb dir (str "proofs")) && proof_sfv sfv then false
  else if SUBS_CD (dirname sfv) then false
  else if part_of (str "subpack") dir && negb (has "subpack" rel) then false
  else if part_of (str "subfix") dir && negb (has "subfix" rel) then false
  else if part_of (str "fix") dir && negb (has "fix" rel) then false
  else true.
(** bin/pyrescene.py:556-560 has_music *)
Definition has_music (names : list text) : bool := existsb (fun n => ends_in (str ".mp3") n || ends_in (str ".flac") n || ends_in (str ".mp2") n) names.
(** bin/pyrescene.py:431-573 remove_unwanted_sfvs *)
Definition remove_unwanted_sfvs (sfv_list : list text) (release_dir : text) : list text :=
  match filter (wanted release_dir) sfv_list with
  | [] => filter (fun sfv => (1 <? lenN (entries sfv)) || has_music (entries sfv)) sfv_list
  | l => l
  end.
(** bin/pyrescene.py:575-576 get_unwanted_sfvs; the order of a set is left open by Python, here it is that of the list *)
Definition get_unwanted_sfvs (all wanted : list text) : list text := nodup (list_eq_dec N.eq_dec) (filter (fun s => negb (mem_text s wanted)) all).
(** bin/pyrescene.py:578-592 get_start_rar_files *)
Definition get_start_rar_files (sfv_list : list text) : list text := concat (map (fun sfv => map (pjoin (dirname sfv)) (first_rars (entries sfv))) sfv_list).
End Disk.
