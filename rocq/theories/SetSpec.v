(** SetSpec: store-mode RAR sets that can be rebuilt from their headers and the extracted files. *)
From Verif Require Import Base RarSpec PathSpec ReadSpec SrrSpec RecovSpec FsSpec.

(** ** Archived data *)
(** the parts of files in a volume *)
Definition piece_of (i : item) : list (fhead * bytes) :=
  match fst i with HFile h _ => [(h, snd i)] | _ => [] end.
Definition pieces (v : volume) : list (fhead * bytes) := concat (map piece_of (v_items v)).

Definition is_dir (h : fhead) : bool := N.land (h_flags h) 0xE0 =? 0xE0.
(** the content of the file that a header names: [disk] gives the file with that path, which has the
    size in the header, or the header does not say the size; a folder has zero bytes *)
Definition content_of (disk : text -> option bytes) (h : fhead) (c : bytes) : Prop :=
  if is_dir h then c = repN (h_unpacked h) x00
  else exists p, rar_path (h_text h) p /\ disk p = Some c /\
         (lenN c = h_unpacked h \/ h_unpacked h = 0xFFFFFFFF \/ h_unpacked h = 0xFFFFFFFFFFFFFFFF).

(** The parts, in the order of the volumes, hold the files from front to back.  [cur]: name and
    remaining content of the file the last part was of. *)
Inductive supplied (disk : text -> option bytes) : option (text * bytes) -> list (fhead * bytes) -> Prop :=
| sup_nil cur : supplied disk cur []
| sup_cont n rest h d ps :
    h_text h = n -> supplied disk (Some (n, rest)) ps -> supplied disk (Some (n, d ++ rest)) ((h, d) :: ps)
| sup_new cur h d rest ps :
    (forall n r, cur = Some (n, r) -> h_text h <> n) -> content_of disk h (d ++ rest) ->
    supplied disk (Some (h_text h, rest)) ps -> supplied disk cur ((h, d) :: ps).

(** ** Blocks *)
(** the data of a recovery record is determined by the volume in front of it *)
Definition recov_right (before : bytes) (i : item) : Prop :=
  match fst i with
  | HRecov _ _ rs ds _ | HOldRecov _ _ _ rs ds _ _ =>
      (0 < rs /\ N.of_nat (sector_count before) <= ds /\ snd i = rr_data (N.to_nat rs) (N.to_nat ds) before) \/
      (rs = 0 /\ snd i = [])
  | _ => True
  end.
Fixpoint recovs_right (before : bytes) (l : list item) : Prop :=
  match l with
  | [] => True
  | i :: l' => recov_right before i /\ recovs_right (before ++ ser_item i) l'
  end.
(** the types of RAR 1.5-4.x blocks, and the 20 byte block of type 0 *)
Definition known_type (hd : rhead) : Prop :=
  match hd with
  | HBlock _ ty _ body _ => 0x72 <= ty <= 0x7B \/ (ty = 0 /\ lenN body = 13)
  | HFile h _ => h_method h = 0x30
  | _ => True
  end.
Definition store_volume (v : volume) : Prop :=
  volume_ok v /\ Forall (fun i => known_type (fst i)) (v_items v) /\
  recovs_right (ser_head MARKER) (v_items v).

(** ** SRR files holding a list of volumes, with other SRR blocks anywhere in between *)
Definition neutral (i : sitem) : bool :=
  match i with SApp _ _ _ _ | SStored _ _ _ _ _ | SOso _ _ _ _ _ _ => true | _ => false end.
Inductive holds_volumes : list sitem -> list (text * volume) -> Prop :=
| hv_nil : holds_volumes [] []
| hv_skip i l vs : neutral i = true -> holds_volumes l vs -> holds_volumes (i :: l) vs
| hv_vol n v l vs : holds_volumes l vs -> holds_volumes (vol_items n v ++ l) ((n, v) :: vs).
