(** SrrSpec: the SRR files that creating and editing must produce, as lists of blocks. *)
From Verif Require Import Base Rar RarSpec ReadSpec.

(** ** Blocks the tool writes *)
Definition app_item (app : text) : sitem :=
  SApp 0x6969 (match app with [] => 0 | _ => 1 end) app [].
Definition stored_item (nd : text * bytes) : sitem := SStored 0x6A6A 0x8000 (fst nd) (snd nd) [].
Definition rar_item (name : text) : sitem := SRar 0x7171 1 name [].
Definition oso_item (size hash : N) (name : text) : sitem := SOso 0x6B6B 0 size hash name [].

(** what an SRR keeps of one volume *)
Definition vol_items (name : text) (v : volume) : list sitem :=
  rar_item name :: SHead MARKER :: map (fun i => SHead (fst i)) (v_items v) ++ pad_item (v_pad v).

(** ** Names *)
Definition text_dec := list_eq_dec N.eq_dec.
Definition named (names : list text) (i : sitem) : bool :=
  match i with
  | SStored _ _ n _ _ => if in_dec text_dec n names then true else false
  | _ => false
  end.
Definition is_sstored (i : sitem) : bool := match i with SStored _ _ _ _ _ => true | _ => false end.
Definition is_sapp (i : sitem) : bool := match i with SApp _ _ _ _ => true | _ => false end.
Definition is_srar (i : sitem) : bool := match i with SRar _ _ _ _ => true | _ => false end.

(** ** Editing *)
(** the new blocks go before the first volume, or at the end *)
Fixpoint add_items (new l : list sitem) : list sitem :=
  match l with
  | [] => new
  | i :: l' => if is_srar i then new ++ l else i :: add_items new l'
  end.
Definition remove_items (names : list text) (l : list sitem) : list sitem :=
  filter (fun i => negb (named names i)) l.
Fixpoint rename_items (old new : text) (l : list sitem) : list sitem :=
  match l with
  | [] => []
  | SStored c f n d e :: l' =>
    if text_dec n old then stored_item (new, d) :: l'
    else SStored c f n d e :: rename_items old new l'
  | i :: l' => i :: rename_items old new l'
  end.
(** the application name of a merged file: the requested one, else the first one that is not empty,
    else empty *)
Definition app_names (l : list sitem) : list text :=
  concat (map (fun i => match i with SApp _ _ n _ => [n] | _ => [] end) l).
Definition first_nonempty (l : list text) : text :=
  match filter (fun t => negb (lenN t =? 0)) l with t :: _ => t | [] => [] end.
Definition merge_items (ls : list (list sitem)) (app : option text) : list sitem :=
  app_item (first_nonempty ((match app with Some a => [a] | None => [] end)
                            ++ concat (map app_names ls)))
  :: concat (map (filter is_sstored) ls)
  ++ concat (map (filter (fun i => negb (is_sapp i) && negb (is_sstored i))) ls).

(** names of the stored files, in order *)
Definition stored_names (l : list sitem) : list text :=
  concat (map (fun i => match i with SStored _ _ n _ _ => [n] | _ => [] end) l).
(** stored files with their contents, in order *)
Definition stored_files (l : list sitem) : list (text * bytes) :=
  concat (map (fun i => match i with SStored _ _ n d _ => [(n, d)] | _ => [] end) l).
(** a name a stored file can have: not empty, none of the eight characters Windows forbids in it, and the header with its
    13 other bytes stays below 64 KiB *)
Definition storable (n : text) : Prop :=
  valid_text n /\ n <> [] /\ Forall (fun c => ~ In c (str "\:*?""<>|")) n /\ lenN (utf8 n) + 13 < 65536.

(** 16 hexadecimal digits and their value *)
Definition HEX : text := str "0123456789abcdef".
Definition hex_value (h : text) (v : N) : Prop :=
  lenN h = 16 /\
  exists ds, Forall (fun d => (d < 16)%nat) ds /\ lower h = map (fun d => nth d HEX 0) ds /\
             v = fold_left (fun a d => 16 * a + N.of_nat d) ds 0.

(** ** The blocks the tool can write, by what they hold *)
Inductive part :=
| PApp (name : text)
| PStored (name : text) (data : bytes)
| PRar (name : text)
| POso (size : N) (hash : text) (name : text)
| PPad (data : bytes).
Definition part_kind (p : part) (k : kind) : Prop :=
  match p with
  | PApp n => k = KSrrHeader n
  | PStored n d => k = KStored (lenN d) n
  | PRar n => k = KRarFile n
  | POso s h n => exists v, hex_value h v /\ k = KOso s v n
  | PPad d => k = KPadding (lenN d)
  end.
Definition part_data (p : part) : bytes :=
  match p with PStored _ d => d | PPad d => d | _ => [] end.
(** [blks] are the blocks of the parts written as [bs] one behind the other in [file] from [pos] on *)
Fixpoint reported (file : bytes) (pos : N) (ps : list part) (bs : list bytes) (blks : list block) : Prop :=
  match ps, bs, blks with
  | [], [], [] => True
  | p :: ps, b :: bs, k :: blks =>
    b_pos k = pos /\ part_kind p (b_kind k) /\
    b_hsize k + lenN (part_data p) = lenN b /\
    sub (pos + b_hsize k) (lenN (part_data p)) file = part_data p /\
    reported file (pos + lenN b) ps bs blks
  | _, _, _ => False
  end.
