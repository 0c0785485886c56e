(** InfoListSpec: archived files and SFV sums in the listing of an SRR file. *)
From Verif Require Import Base Path Rar Sfv.

(** the blocks of the file [n] in order *)
Definition parts (fs : list file_info) (n : text) : list file_info := filter (fun f => teqb (f_name f) n) fs.
Definition sum_packed (fs : list file_info) : N := fold_right (fun f a => f_packed f + a) 0 fs.
(** [e] is about the volume listed under [k] *)
Definition about_rar (lowf : text -> text) (k : text) (e : sfv) : Prop := lowf (basename (e_name e)) = k.
(** the sum listed for [k] is that of the last SFV entry about it, or what it was *)
Definition sum_listed (lowf upf : text -> text) (es : list sfv) (k : text) (old new : option text) : Prop :=
  (exists a e b, es = a ++ e :: b /\ about_rar lowf k e /\ (forall x, In x b -> ~ about_rar lowf k x) /\ new = Some (upf (e_crc e))) \/
  ((forall x, In x es -> ~ about_rar lowf k x) /\ new = old).
