(** NzbFixSpec: repaired NZB files. *)
From Verif Require Import Base.

Definition all_in (lo hi : N) (b : byte) : Prop := lo <= b2n b <= hi.
(** the text after an ampersand: a name in small letters, or a number *)
Definition ref_name (n : bytes) : Prop :=
  (n <> [] /\ Forall (all_in 97 122) n) \/
  (exists d, n = bstr "#" ++ d /\ d <> [] /\ Forall (all_in 48 57) d) \/
  (exists d, n = bstr "#x" ++ d /\ d <> [] /\ Forall (fun b => all_in 48 57 b \/ all_in 97 102 b) d).
Definition reference (l : bytes) : Prop := exists n r, l = n ++ x3b :: r /\ ref_name n.
(** a line and the line repaired: ampersands that begin no reference are written as such, zero bytes are left out, and
    the o with two dots is one byte *)
Inductive rep : bytes -> bytes -> Prop :=
| rp_nil : rep [] []
| rp_zero l o : rep l o -> rep (x00 :: l) o
| rp_char b l o : b <> x26 -> b <> x00 -> rep l o -> rep (b :: l) (b :: o)
| rp_ouml l o : rep l o -> rep (bstr "&ouml;" ++ l) (xf6 :: o)
| rp_ref l o : reference l -> (forall r, l <> bstr "ouml;" ++ r) -> rep l o -> rep (x26 :: l) (x26 :: o)
| rp_amp l o : ~ reference l -> rep l o -> rep (x26 :: l) (bstr "&amp;" ++ o).
(** the lines of a file with their newlines *)
Inductive file_lines : bytes -> list bytes -> Prop :=
| fl_nil : file_lines [] []
| fl_last w : w <> [] -> ~ In x0a w -> file_lines w [w]
| fl_cons w t ls : ~ In x0a w -> file_lines t ls -> file_lines (w ++ x0a :: t) ((w ++ [x0a]) :: ls).
Definition closing (l : bytes) : Prop := exists a b, l = a ++ bstr "</nzb>" ++ b.
(** references that XML knows: numbers in hexadecimal may have capitals *)
Definition xml_ref (n : bytes) : Prop :=
  In n [bstr "amp"; bstr "lt"; bstr "gt"; bstr "quot"; bstr "apos"] \/
  (exists d, n = bstr "#" ++ d /\ d <> [] /\ Forall (all_in 48 57) d) \/
  (exists d, n = bstr "#x" ++ d /\ d <> [] /\ Forall (fun b => all_in 48 57 b \/ all_in 65 70 b \/ all_in 97 102 b) d).
(** a line that needs no repair *)
Definition sound (l : bytes) : Prop := ~ In x00 l /\ forall a b, l = a ++ x26 :: b -> reference b /\ forall r, b <> bstr "ouml;" ++ r.
