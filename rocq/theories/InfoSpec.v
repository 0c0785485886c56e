(** InfoSpec: what the listing and the content hash of an SRR file are about. *)
From Verif Require Import Base RarSpec ReadSpec SrrSpec.

(** recovery records have the size that their numbers of sectors give *)
Definition rr_size_ok (i : item) : Prop :=
  match fst i with HRecov _ _ rs ds p => p = 512 * rs + 2 * ds | _ => True end.

(** the blocks of a volume in an SRR file *)
Definition kept_items (v : volume) : list sitem := SHead MARKER :: map (fun i => SHead (fst i)) (v_items v) ++ pad_item (v_pad v).
(** their bytes up to the end of the last header *)
Definition vol_meta (v : volume) : bytes :=
  ser_srr (removelast (kept_items v)) ++ s_hdr (last (kept_items v) (SHead MARKER)).

(** order of strings: by the first character that differs, a beginning comes first *)
Definition text_before (a b : text) : Prop :=
  exists p, (exists x t, a = p /\ b = p ++ x :: t) \/
            (exists x y t u, a = p ++ x :: t /\ b = p ++ y :: u /\ x < y).
