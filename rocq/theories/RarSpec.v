(** RarSpec: what RAR 1.5-4.x volumes and SRR files look like, written down independently of the
    reader in Rar.v.  Everything here serialises; nothing parses. *)
From Verif Require Import Base.

(** A block header: CRC, type, flags, header size, then the rest of the header ([body]). *)
Definition hdr (crc ty fl : N) (body : bytes) : bytes :=
  le 2 crc ++ le 1 ty ++ le 2 fl ++ le 2 (7 + lenN body) ++ body.
Definition hdr_ok (crc ty fl : N) (body : bytes) : Prop :=
  crc < 65536 /\ ty < 256 /\ fl < 65536 /\ 7 + lenN body < 65536.

(** ** Compressed Unicode names *)
Inductive nop :=
| NLow (b : byte)             (* code 0: the character b *)
| NHigh (b : byte)            (* code 1: b with the common high byte *)
| NPair (lo hi : byte)        (* code 2: both bytes *)
| NRun (k : N)                (* code 3: k characters of the plain name *)
| NRunC (k : N) (corr : byte) (* code 3: k of them, corrected, with the common high byte *).

Definition nop_code (o : nop) : N :=
  match o with NLow _ => 0 | NHigh _ => 1 | NPair _ _ => 2 | _ => 3 end.
Definition nop_bytes (o : nop) : bytes :=
  match o with
  | NLow b => [b]
  | NHigh b => [b]
  | NPair lo hi => [lo; hi]
  | NRun k => [n2b (k - 2)]
  | NRunC k corr => [n2b (128 + (k - 2)); corr]
  end.
Definition nop_len (o : nop) : N := match o with NRun k => k | NRunC k _ => k | _ => 1 end.
(** the 16 bit characters denoted, at position [pos] of the name *)
Definition nop_units (std : bytes) (hi : byte) (pos : N) (o : nop) : list N :=
  match o with
  | NLow b => [b2n b]
  | NHigh b => [b2n b + 256 * b2n hi]
  | NPair lo h => [b2n lo + 256 * b2n h]
  | NRun k => map b2n (sub pos k std)
  | NRunC k corr => map (fun b => (b2n b + b2n corr) mod 256 + 256 * b2n hi) (sub pos k std)
  end.
Definition nop_ok (std : bytes) (pos : N) (o : nop) : Prop :=
  match o with
  | NRun k | NRunC k _ => 2 <= k <= 129 /\ pos + k <= lenN std
  | _ => True
  end.
Fixpoint nops_ok (std : bytes) (pos : N) (l : list nop) : Prop :=
  match l with
  | [] => True
  | o :: l' => nop_ok std pos o /\ nops_ok std (pos + nop_len o) l'
  end.
Fixpoint nops_units (std : bytes) (hi : byte) (pos : N) (l : list nop) : list N :=
  match l with
  | [] => []
  | o :: l' => nop_units std hi pos o ++ nops_units std hi (pos + nop_len o) l'
  end.
(** the two bit code number [i] (0..3, most significant first) of a flag byte *)
Definition code_at (f : byte) (i : N) : N := (b2n f / 4 ^ (3 - i)) mod 4.
(** groups of four operations behind a flag byte; the unused bits of the last one are free *)
Inductive enc_groups : bytes -> list nop -> Prop :=
| eg_nil : enc_groups [] []
| eg_four f a b c d rest ops :
    code_at f 0 = nop_code a -> code_at f 1 = nop_code b ->
    code_at f 2 = nop_code c -> code_at f 3 = nop_code d ->
    enc_groups rest ops ->
    enc_groups (f :: nop_bytes a ++ nop_bytes b ++ nop_bytes c ++ nop_bytes d ++ rest)
               (a :: b :: c :: d :: ops)
| eg_three f a b c :
    code_at f 0 = nop_code a -> code_at f 1 = nop_code b -> code_at f 2 = nop_code c ->
    enc_groups (f :: nop_bytes a ++ nop_bytes b ++ nop_bytes c) [a; b; c]
| eg_two f a b :
    code_at f 0 = nop_code a -> code_at f 1 = nop_code b ->
    enc_groups (f :: nop_bytes a ++ nop_bytes b) [a; b]
| eg_one f a : code_at f 0 = nop_code a -> enc_groups (f :: nop_bytes a) [a].

(** [raw] in a file header with these flags stands for the name [t] *)
Definition name_spec (flags : N) (raw : bytes) (t : text) : Prop :=
  if has flags 0x200 then
    exists std hi enc ops,
      raw = std ++ x00 :: hi :: enc /\ ~ In x00 std /\
      enc_groups enc ops /\ nops_ok std 0 ops /\
      t = utf16_units (nops_units std hi 0 ops)
  else t = cp1252 raw.

(** ** File headers *)
Record fhead := mkFhead {
  h_crc : N; h_flags : N; h_unpacked : N; h_os : N; h_fcrc : N; h_time : N;
  h_ver : N; h_method : N; h_attr : N;
  h_raw : bytes;    (* the name field *)
  h_text : text;    (* the name it stands for *)
  h_salt : bytes; h_ext : bytes; h_extra : bytes }.

Definition fbody (h : fhead) (packed : N) (extra : bytes) : bytes :=
  le 4 (packed mod 0x100000000) ++ le 4 (h_unpacked h mod 0x100000000) ++ le 1 (h_os h) ++
  le 4 (h_fcrc h) ++ le 4 (h_time h) ++ le 1 (h_ver h) ++ le 1 (h_method h) ++
  le 2 (lenN (h_raw h)) ++ le 4 (h_attr h) ++
  (if has (h_flags h) 0x100
   then le 4 (packed / 0x100000000) ++ le 4 (h_unpacked h / 0x100000000) else []) ++
  h_raw h ++ h_salt h ++ h_ext h ++ extra.

(** length of the data behind the 2 byte flags of an extended time field *)
Definition xtime_len (nibble : N) (first : bool) : N :=
  if has nibble 8 then (if first then 0 else 4) + N.land nibble 3 else 0.
Definition ext_len (ef : N) : N :=
  xtime_len (N.shiftr ef 12) true + xtime_len (N.shiftr ef 8) false +
  xtime_len (N.shiftr ef 4) false + xtime_len ef false.
Definition ext_spec (ext : bytes) : Prop :=
  exists ef d, ef < 65536 /\ ext = le 2 ef ++ d /\ lenN d = ext_len ef.

Definition fhead_ok (h : fhead) (packed : N) : Prop :=
  h_os h < 256 /\ h_fcrc h < 4294967296 /\ h_time h < 4294967296 /\
  h_ver h < 256 /\ h_method h < 256 /\ h_attr h < 4294967296 /\ lenN (h_raw h) < 65536 /\
  (if has (h_flags h) 0x100
   then packed < 18446744073709551616 /\ h_unpacked h < 18446744073709551616
   else packed < 4294967296 /\ h_unpacked h < 4294967296) /\
  name_spec (h_flags h) (h_raw h) (h_text h) /\
  lenN (h_salt h) = (if has (h_flags h) 0x400 then 8 else 0) /\
  (if has (h_flags h) 0x1000 then ext_spec (h_ext h) else h_ext h = []).

(** ** Blocks of a volume, without the data that an SRR leaves out *)
Inductive rhead :=
| HFile (h : fhead) (packed : N)                                   (* 0x74 *)
| HRecov (h : fhead) (mark : bytes) (rs ds packed : N)             (* 0x7A named RR *)
| HOldRecov (crc flags ver rs ds packed : N) (extra : bytes)       (* 0x78 *)
| HSub (h : fhead) (data : bytes)                                  (* 0x7A, other *)
| HBlock (crc ty flags : N) (body data : bytes).                   (* everything else *)

Definition head_extra (hd : rhead) : bytes :=
  match hd with
  | HRecov h mark rs ds _ => mark ++ le 4 rs ++ le 8 ds ++ h_extra h
  | HFile h _ => h_extra h
  | HSub h _ => h_extra h
  | _ => []
  end.
Definition head_crc hd := match hd with
  | HFile h _ | HRecov h _ _ _ _ | HSub h _ => h_crc h
  | HOldRecov crc _ _ _ _ _ _ => crc | HBlock crc _ _ _ _ => crc end.
Definition head_ty (hd : rhead) : N :=
  match hd with
  | HFile _ _ => 0x74 | HRecov _ _ _ _ _ => 0x7A | HOldRecov _ _ _ _ _ _ _ => 0x78
  | HSub _ _ => 0x7A | HBlock _ ty _ _ _ => ty end.
Definition head_flags hd := match hd with
  | HFile h _ | HRecov h _ _ _ _ | HSub h _ => h_flags h
  | HOldRecov _ fl _ _ _ _ _ => fl | HBlock _ _ fl _ _ => fl end.
Definition head_body (hd : rhead) : bytes :=
  match hd with
  | HFile h packed => fbody h packed (head_extra hd)
  | HRecov h _ _ _ packed => fbody h packed (head_extra hd)
  | HOldRecov _ _ ver rs ds packed extra =>
      le 4 packed ++ le 1 ver ++ le 2 rs ++ le 4 ds ++ extra
  | HSub h data => fbody h (lenN data) (head_extra hd)
  | HBlock _ _ _ body _ => body
  end.
(** data that is kept with the block *)
Definition head_data (hd : rhead) : bytes :=
  match hd with HSub _ data => data | HBlock _ _ _ _ data => data | _ => [] end.
(** size of the data that is left out of an SRR *)
Definition head_packed (hd : rhead) : N :=
  match hd with
  | HFile _ p => p | HRecov _ _ _ _ p => p | HOldRecov _ _ _ _ _ p _ => p | _ => 0 end.
Definition ser_head (hd : rhead) : bytes :=
  hdr (head_crc hd) (head_ty hd) (head_flags hd) (head_body hd) ++ head_data hd.

Definition RR_NAME : bytes := [x52; x52].
Definition RR_TEXT : text := [82; 82].

Definition head_ok (hd : rhead) : Prop :=
  hdr_ok (head_crc hd) (head_ty hd) (head_flags hd) (head_body hd) /\
  match hd with
  | HFile h packed => fhead_ok h packed
  | HRecov h mark rs ds packed =>
      fhead_ok h packed /\ h_raw h = RR_NAME /\ lenN mark = 8 /\
      has (h_flags h) 0x100 = false /\ has (h_flags h) 0x200 = false /\
      rs < 4294967296 /\ ds < 18446744073709551616
  | HOldRecov _ flags ver rs ds packed _ =>
      has flags 0x8000 = true /\ ver < 256 /\ rs < 65536 /\ ds < 4294967296 /\
      packed < 4294967296
  | HSub h data =>
      fhead_ok h (lenN data) /\ has (h_flags h) 0x100 = false /\
      h_raw h <> RR_NAME /\ h_text h <> RR_TEXT
  | HBlock _ ty flags body data =>
      ~ In ty [0x69; 0x6A; 0x6B; 0x6C; 0x71; 0x74; 0x78; 0x7A] /\
      (if has flags 0x8000
       then exists b', body = le 4 (lenN data) ++ b' /\ lenN data < 4294967296
       else data = []) /\
      (ty = 0x73 -> body = [] \/ 6 <= lenN body) /\
      (ty = 0x7B -> body = [] \/
         (if has flags 2 then 4 else 0) + (if has flags 8 then 2 else 0) <= lenN body)
  end.

Definition is_recov (hd : rhead) : bool :=
  match hd with HRecov _ _ _ _ _ => true | HOldRecov _ _ _ _ _ _ _ => true | _ => false end.

(** ** RAR volumes *)
Definition MARKER : rhead := HBlock 0x6152 0x72 0x1a21 [] [].
Definition item := (rhead * bytes)%type.
Definition ser_item (i : item) : bytes := ser_head (fst i) ++ snd i.
Definition item_ok (i : item) : Prop := head_ok (fst i) /\ lenN (snd i) = head_packed (fst i).
Definition is_end (hd : rhead) : bool := head_ty hd =? 0x7B.

Record volume := mkVolume { v_items : list item; v_pad : bytes }.
Definition ser_volume (v : volume) : bytes :=
  ser_head MARKER ++ concat (map ser_item (v_items v)) ++ v_pad v.
(** only the last block can be an end of archive block; bytes behind it are padding *)
Definition volume_ok (v : volume) : Prop :=
  Forall item_ok (v_items v) /\
  (exists l last, v_items v = l ++ [last] /\
     Forall (fun i => is_end (fst i) = false) l /\
     (v_pad v = [] \/ is_end (fst last) = true)) /\
  lenN (v_pad v) < 4294967296 /\
  20 <= lenN (ser_volume v).

(** ** SRR files *)
Definition utf8 (t : text) : bytes := match utf8_enc t with Some b => b | None => [] end.
Definition valid_text (t : text) : Prop := utf8_enc t <> None.

Inductive sitem :=
| SApp (crc flags : N) (name : text) (extra : bytes)
| SStored (crc flags : N) (name : text) (data extra : bytes)
| SRar (crc flags : N) (name : text) (extra : bytes)
| SOso (crc flags size hash : N) (name : text) (extra : bytes)
| SPad (crc flags : N) (data extra : bytes)
| SHead (hd : rhead).

Definition name_field (t : text) : bytes := le 2 (lenN (utf8 t)) ++ utf8 t.
Definition s_crcv (i : sitem) : N := match i with
  | SApp c _ _ _ | SStored c _ _ _ _ | SRar c _ _ _ | SOso c _ _ _ _ _ | SPad c _ _ _ => c
  | SHead hd => head_crc hd end.
Definition s_flags (i : sitem) : N := match i with
  | SApp _ f _ _ | SStored _ f _ _ _ | SRar _ f _ _ | SOso _ f _ _ _ _ | SPad _ f _ _ => f
  | SHead hd => head_flags hd end.
Definition s_ty (i : sitem) : N := match i with
  | SApp _ _ _ _ => 0x69 | SStored _ _ _ _ _ => 0x6A | SRar _ _ _ _ => 0x71
  | SOso _ _ _ _ _ _ => 0x6B | SPad _ _ _ _ => 0x6C | SHead hd => head_ty hd end.
Definition s_body (i : sitem) : bytes := match i with
  | SApp _ fl name extra => (if has fl 1 then name_field name else []) ++ extra
  | SStored _ _ name data extra => le 4 (lenN data) ++ name_field name ++ extra
  | SRar _ _ name extra => name_field name ++ extra
  | SOso _ _ size hash name extra => le 8 size ++ le 8 hash ++ name_field name ++ extra
  | SPad _ _ data extra => le 4 (lenN data) ++ extra
  | SHead hd => head_body hd end.
Definition s_data (i : sitem) : bytes := match i with
  | SStored _ _ _ data _ => data | SPad _ _ data _ => data | SHead hd => head_data hd
  | _ => [] end.
Definition ser_sitem (i : sitem) : bytes :=
  hdr (s_crcv i) (s_ty i) (s_flags i) (s_body i) ++ s_data i.
Definition ser_srr (l : list sitem) : bytes := concat (map ser_sitem l).

Definition name_ok (t : text) : Prop := valid_text t /\ lenN (utf8 t) < 65536.
Definition sitem_ok (i : sitem) : Prop :=
  hdr_ok (s_crcv i) (s_ty i) (s_flags i) (s_body i) /\
  match i with
  | SApp _ fl name _ => has fl 0x8000 = false /\
      (if has fl 1 then name_ok name else name = [])
  | SStored _ fl name data _ => has fl 0x8000 = true /\ name_ok name /\ lenN data < 4294967296
  | SRar _ fl name _ => has fl 0x8000 = false /\ name_ok name
  | SOso _ fl size hash name _ => has fl 0x8000 = false /\ name_ok name /\
      size < 18446744073709551616 /\ hash < 18446744073709551616
  | SPad _ fl data _ => has fl 0x8000 = true /\ lenN data < 4294967296
  | SHead hd => head_ok hd
  end.

(** recovery records come behind a volume marker that says their data is left out *)
Fixpoint recov_removed (cur : bool) (l : list sitem) : Prop :=
  match l with
  | [] => True
  | SRar _ fl _ _ :: l' => recov_removed (has fl 1) l'
  | SHead hd :: l' => (is_recov hd = true -> cur = true) /\ recov_removed cur l'
  | _ :: l' => recov_removed cur l'
  end.

Definition srr_ok (l : list sitem) : Prop :=
  (exists c f n e l', l = SApp c f n e :: l') /\
  Forall sitem_ok l /\ recov_removed false l /\ 20 <= lenN (ser_srr l).
