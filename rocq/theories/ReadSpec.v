(** ReadSpec: what reading the files of [RarSpec] must report: for every block its position, its
    header fields, and the values decoded from it. *)
From Verif Require Import Base Rar RarSpec.

Definition file_info_of (h : fhead) (packed : N) : file_info :=
  mkFile packed (h_unpacked h) (h_os h) (h_fcrc h) (h_time h) (h_ver h) (h_method h)
         (h_attr h) (h_text h).

(** ** Expected blocks *)
Definition head_kind (hd : rhead) : kind :=
  match hd with
  | HFile h p => KFile (file_info_of h p)
  | HRecov h _ rs ds p => KNewSub (file_info_of h p) (Some (rs, ds))
  | HOldRecov _ _ ver rs ds p _ => KOldRec p ver rs ds
  | HSub h d => KNewSub (file_info_of h (lenN d)) None
  | HBlock _ ty _ body _ =>
    match body with
    | [] => KPlain
    | _ => if ty =? 0x73 then KVolume (unle (takeN 2 body)) (unle (sub 2 4 body))
           else if ty =? 0x7B then KEnd else KPlain
    end
  end.
Definition s_kind (i : sitem) : kind :=
  match i with
  | SApp _ _ name _ => KSrrHeader name
  | SStored _ _ name data _ => KStored (lenN data) name
  | SRar _ _ name _ => KRarFile name
  | SOso _ _ size hash name _ => KOso size hash name
  | SPad _ _ data _ => KPadding (lenN data)
  | SHead hd => head_kind hd
  end.
Definition head_add (hd : rhead) : N :=
  match hd with
  | HSub _ d => lenN d
  | HBlock _ _ _ _ d => lenN d
  | _ => head_packed hd
  end.
Definition s_add (i : sitem) : N :=
  match i with
  | SStored _ _ _ data _ => lenN data
  | SPad _ _ data _ => lenN data
  | SHead hd => head_add hd
  | _ => 0
  end.
Definition s_hdr (i : sitem) : bytes := hdr (s_crcv i) (s_ty i) (s_flags i) (s_body i).
Definition s_raw (i : sitem) : bytes :=
  match i with SStored _ _ _ _ _ => s_hdr i | _ => ser_sitem i end.
Definition sblk (pos : N) (i : sitem) : block :=
  mkBlock pos (s_crcv i) (s_ty i) (s_flags i) (7 + lenN (s_body i)) (s_add i) (s_raw i) (s_kind i).
Fixpoint sblks (pos : N) (l : list sitem) : list block :=
  match l with
  | [] => []
  | i :: l' => sblk pos i :: sblks (pos + lenN (ser_sitem i)) l'
  end.

Definition hblk (pos : N) (hd : rhead) : block := sblk pos (SHead hd).

(** ** Volumes *)
Fixpoint vblks (pos : N) (l : list item) : list block :=
  match l with
  | [] => []
  | i :: l' => hblk pos (fst i) :: vblks (pos + lenN (ser_item i)) l'
  end.
Definition pad_item (pad : bytes) : list sitem :=
  match pad with [] => [] | _ => [SPad 0x6C6C 0x8000 pad []] end.
Definition padblks (pos : N) (pad : bytes) : list block :=
  match pad with
  | [] => []
  | _ => [mkBlock pos 0x6C6C 0x6C 0x8000 11 0 (ser_srr (pad_item pad)) (KPadding (lenN pad))]
  end.
Definition ser_items (l : list item) : bytes := concat (map ser_item l).
Definition volume_blocks (v : volume) : list block :=
  vblks 0 ((MARKER, []) :: v_items v) ++ padblks (7 + lenN (ser_items (v_items v))) (v_pad v).

