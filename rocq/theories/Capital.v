(** Capital: the file on disk that a name from an SFV file stands for (rescene/utility.py capitalized_fn). *)
From Verif Require Import Base Path.

Section Os.
(** str.lower, os.listdir (None: no such folder) and os.path.isfile *)
Variables (lowf : text -> text) (listdir : text -> option (list text)) (isfile : text -> bool).
(** utility.py:543-554: the loop over the folder *)
Definition same_name (dir inputfn cfile : text) : bool :=
  teqb (lowf cfile) (lowf inputfn) && isfile (pjoin dir cfile).
(** utility.py:531-566 capitalized_fn *)
Definition capitalized_fn (afile : text) : result (text * text) :=
  let inputfn := basename afile in
  let inputdir := match dirname afile with [] => str "." | d => d end in
  match listdir inputdir with
  | None => Err OSError
  | Some names =>
    let exact := match find (same_name inputdir inputfn) names with
                 | Some cfile => pjoin inputdir cfile
                 | None => afile
                 end in
    let actualfn := basename exact in
    let capitals := if teqb (lowf actualfn) actualfn then pjoin inputdir inputfn
                    else if teqb (lowf inputfn) inputfn then pjoin inputdir actualfn
                    else afile in
    Ok (exact, capitals)
  end.
End Os.
