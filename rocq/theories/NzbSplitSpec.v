(** NzbSplitSpec: the releases of an NZB file, and the names that are made for them. *)
From Verif Require Import Base Path.

(** characters that do not go into the name of a file *)
Definition FORBIDDEN : text := str "?*:<>|/\" ++ [34].
Definition cleaned (c c' : N) : Prop := (In c FORBIDDEN /\ c' = 95) \/ (~ In c FORBIDDEN /\ c' = c).
(** [r]: the name with underscores for these characters, without the underscores at both ends *)
Definition clean_name (base r : text) : Prop :=
  exists a b, Forall2 cleaned base (repeat 95 a ++ r ++ repeat 95 b) /\ (forall x, r <> 95 :: x) /\ (forall x, r <> x ++ [95]).
(** the words of a subject *)
Definition SEPARATORS : text := 32 :: str "[]" ++ FORBIDDEN.
Definition word (s w : text) : Prop := exists a b, s = a ++ w ++ b /\ (forall c, In c w -> ~ In c SEPARATORS) /\
  (a = [] \/ exists a' c, a = a' ++ [c] /\ In c SEPARATORS) /\ (b = [] \/ exists c b', b = c :: b' /\ In c SEPARATORS).
Definition inside (a b : text) : Prop := exists x y, b = x ++ a ++ y.

Section Spec.
Variable A : Type.
Variable rel : A -> option text.
(** the files with a release, in their order *)
Definition tagged (fs : list A) : list (text * A) := flat_map (fun f => match rel f with Some r => [(r, f)] | None => [] end) fs.
Definition files_of (r : text) (ks : list (text * A)) : list A := map snd (filter (fun x => teqb (fst x) r) ks).
(** the files of a release are together *)
Definition together (ks : list (text * A)) : Prop := forall a x b y c, ks = a ++ x :: b ++ y :: c -> fst x = fst y -> forall z, In z b -> fst z = fst x.
(** the NZB file of a release *)
Definition nzb_of (out r : text) : text := pjoin out (r ++ str ".nzb").
(** [run]: the files at the end that have the same release *)
Definition last_run (ks before : list (text * A)) (l : text) (run : list A) : Prop :=
  ks = before ++ map (pair l) run /\ run <> [] /\ forall b x, before = b ++ [x] -> fst x <> l.
End Spec.
Arguments tagged {A}. Arguments files_of {A}. Arguments together {A}. Arguments last_run {A}.
(** the longest words of a subject that do not contain the name of the file; no word at all: an empty one *)
Definition longest (s fn w : text) : Prop := (w = [] \/ (word s w /\ ~ inside fn w)) /\ forall v, word s v -> ~ inside fn v -> (length v <= length w)%nat.
(** a hyphen in the last 10 characters *)
Definition near_hyphen (q : text) : Prop := exists a b, q = a ++ 45 :: b /\ (length b < 10)%nat.
(** the name that is made clean *)
Definition chosen (s fn base : text) (relname : option text) (substring : bool) (x : text) : Prop :=
  match relname with
  | Some q => (substring = false /\ near_hyphen q /\ x = q) \/ ((substring = true \/ ~ near_hyphen q) /\ longest s fn x)
  | None => (longest s fn x /\ (length base < length x)%nat) \/ (x = base /\ forall w, longest s fn w -> (length w <= length base)%nat)
  end.
