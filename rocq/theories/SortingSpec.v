(** SortingSpec: what is in an SRR file. *)
From Verif Require Import Base RarSpec SrrSpec DirsSpec VerifySpec Sorting.

Definition has_stored (l : list sitem) (n : text) : Prop := In n (stored_names l).
Definition has_volume (l : list sitem) (n : text) : Prop := exists c f e, In (SRar c f n e) l.
Definition has_packed (l : list sitem) (h : fhead) : Prop := exists p, In (SHead (HFile h p)) l.
(** an image by the extensions in small letters *)
Definition image (n : text) : Prop := exists e, In e [".jpg"; ".png"; ".bmp"; ".gif"]%string /\ ext_of n (str e).
Definition any_image (n : text) : Prop := exists e x, In e [".jpg"; ".png"; ".bmp"; ".gif"; ".jpeg"]%string /\ ext_of n x /\ lower x = str e.
Definition has_word (w : string) (n : text) : Prop := inside (str w) (lower n).
Definition repack (n : text) : Prop := exists w, In w ["rpk"; "repack"; "-r.part01.rar"; "-r.rar"]%string /\ inside (str w) n.
(** one of the options asks for this SRR file; the options -p and -t are left out *)
Definition wanted (o : options) (l : list sitem) : Prop :=
  (o_compressed o = true /\ exists h, has_packed l h /\ h_method h <> 0x30) \/ (o_empty o = true /\ forall h, ~ has_packed l h) \/
  (o_image o = true /\ exists n, has_stored l n /\ image n) \/ (o_repack o = true /\ exists n, has_volume l n /\ repack n) \/
  (o_duplicates o = true /\ ~ NoDup (stored_names l)) \/ (o_p2p o = true /\ exists n, has_volume l n /\ lower n <> n) \/
  (o_nofiles o = true /\ forall n, ~ has_stored l n) \/ (o_nosfv o = true /\ forall n, has_stored l n -> ~ DirsSpec.named ".sfv" n) \/
  (o_nonfo o = true /\ forall n, has_stored l n -> ~ DirsSpec.named ".nfo" n) \/ (o_txt o = true /\ exists n, has_stored l n /\ DirsSpec.named ".txt" n).
