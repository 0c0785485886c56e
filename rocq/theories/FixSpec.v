(** FixSpec: names of releases that are fixes. *)
From Verif Require Import Base Path Sfv Dirs DirsSpec.

Definition one_line (n : text) : Prop := ~ In 10 n.
(** what is fixed, at most one character, and fix or patch, in any case *)
Definition thing_fix (n : text) : Prop :=
  exists a w s f b, lower n = a ++ str w ++ s ++ str f ++ b /\
  In w ["sfv"; "ppf"; "sync"; "proof"; "proo"; "dir"; "nfo"; "interleaving"; "trackorder"]%string /\ (length s <= 1)%nat /\ In f ["fix"; "patch"]%string.
(** FiX or FIX as a part of the name *)
Definition plain_fix (n : text) : Prop := exists f e, In f ["FiX"; "FIX"]%string /\ In e ["."; "-"]%string /\ inside (str "." ++ str f ++ str e) n.
Definition dvdr_fix (n : text) : Prop :=
  exists c, inside (str ".DVDR" ++ [c] ++ str "Fix-") n \/ exists d, inside (str ".DVDR" ++ [c] ++ str "REPACK" ++ [d] ++ str "Fix-") n.
Definition fix_name (n : text) : Prop := thing_fix n \/ plain_fix n \/ dvdr_fix n.
