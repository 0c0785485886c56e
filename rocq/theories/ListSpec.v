(** ListSpec: what the listing of an SRR file is to say about archived files, stored files, sums and recovery records. *)
From Verif Require Import Base Path RarSpec ReadSpec SrrSpec Sfv SfvSpec.

(** ** Archived files *)
(** the headers of the parts of archived files with the sizes of the parts, in the order of the SRR file *)
Definition part_of (i : sitem) : list (fhead * N) := match i with SHead (HFile h p) => [(h, p)] | _ => [] end.
Definition parts (l : list sitem) : list (fhead * N) := concat (map part_of l).
Definition of_name (n : text) (ps : list (fhead * N)) : list (fhead * N) :=
  filter (fun p => if text_dec (h_text (fst p)) n then true else false) ps.
(** the elements of a list at the first places where they are *)
Inductive firsts : list text -> list text -> Prop :=
| fi_nil : firsts [] []
| fi_new l r x : firsts l r -> ~ In x l -> firsts (l ++ [x]) (r ++ [x])
| fi_old l r x : firsts l r -> In x l -> firsts (l ++ [x]) r.
(** the size of a file that its parts give *)
Definition said (n : N) : Prop := n <> 0xFFFFFFFF /\ n <> 0xFFFFFFFFFFFFFFFF.
Inductive says (ps : list (fhead * N)) (size : N) : Prop :=
(** in all headers, but for some in front that hold 2^64 - 1 *)
| say_head a b : ps = a ++ b -> b <> [] -> said size -> Forall (fun p => h_unpacked (fst p) = 0xFFFFFFFFFFFFFFFF) a ->
    Forall (fun p => h_unpacked (fst p) = size) b -> says ps size
(** in no header: a stored file has the size of its parts *)
| say_sum p q : ps = p :: q -> Forall (fun p => h_unpacked (fst p) = 0xFFFFFFFF /\ h_method (fst p) = 0x30) ps -> snd p <> 0 ->
    size = fold_right N.add 0 (map snd ps) -> says ps size.

(** ** The other blocks *)
Definition stored_part (i : sitem) : list (text * bytes) := match i with SStored _ _ n d _ => [(n, d)] | _ => [] end.
Definition app_part (i : sitem) : list text := match i with SApp _ _ n _ => [n] | _ => [] end.
Definition oso_part (i : sitem) : list (text * N * N) := match i with SOso _ _ s h n _ => [(n, h, s)] | _ => [] end.
(** recovery records: new or not, and size of the data *)
Definition recov_part (i : sitem) : list (bool * N) :=
  match i with SHead (HRecov _ _ _ _ p) => [(true, p)] | SHead (HOldRecov _ _ _ _ _ p _) => [(false, p)] | _ => [] end.
Definition all {A} (f : sitem -> list A) (l : list sitem) : list A := concat (map f l).
(** the last value given to a name *)
Definition last_for {A} (k : text) (l : list (text * A)) (v : A) : Prop :=
  exists a b, l = a ++ (k, v) :: b /\ ~ In k (map fst b).

(** ** SFV files *)
Section Case.
Variables lowf upf : text -> text.
Definition sfv_named (n : text) : bool := if text_dec (lowf (rev (firstn 4 (rev n)))) (str ".sfv") then true else false.
(** entries and remarks (comments, then lines that are wrong) of the stored SFV files *)
Definition sfv_data (i : sitem) : list bytes := match i with SStored _ _ n d _ => if sfv_named n then [d] else [] | _ => [] end.
Definition sfv_file (d : bytes) (r : list sfv * list text) : Prop :=
  exists ls cs rs, lines (map b2n d) ls /\ account ls (fst r) cs rs /\ snd r = cs ++ rs.
Definition sfv_files (l : list sitem) (es : list sfv) (remarks : list text) : Prop :=
  exists rs, Forall2 sfv_file (all sfv_data l) rs /\ es = concat (map fst rs) /\ remarks = concat (map snd rs).
(** the name of an entry without folders, in lower case *)
Definition entry_key (e : sfv) : text := lowf (basename (e_name e)).
(** the sum of the last entry for a volume *)
Definition sum_for (k : text) (es : list sfv) (sum : option text) : Prop :=
  (exists a e b, es = a ++ e :: b /\ entry_key e = k /\ Forall (fun e => entry_key e <> k) b /\ sum = Some (upf (e_crc e))) \/
  (Forall (fun e => entry_key e <> k) es /\ sum = None).
End Case.
