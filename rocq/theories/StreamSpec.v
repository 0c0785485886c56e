(** StreamSpec: an ordinary file open for reading, and RAR sets on disk. *)
From Verif Require Import Base RarSpec SetSpec VolSpec Srr Stream.

Inductive whence := FromStart | FromHere | FromEnd.
Inductive op := OSeek (offset : Z) (w : whence) | OTell | ORead (size : Z).
Inductive answer := Pos (n : Z) | Data (d : bytes) | Refused.

(** a file with content [c] at position [pos]; seeking before its start is refused *)
Definition flat_op (c : bytes) (pos : N) (o : op) : N * answer :=
  match o with
  | OSeek offset w =>
    let d := (match w with FromStart => 0 | FromHere => Z.of_N pos | FromEnd => Z.of_N (lenN c) end + offset)%Z in
    if (d <? 0)%Z then (pos, Refused) else (Z.to_N d, Pos d)
  | OTell => (pos, Pos (Z.of_N pos))
  | ORead size =>
    let d := if (size <? 0)%Z then dropN pos c else takeN (Z.to_N size) (dropN pos c) in
    (pos + lenN d, Data d)
  end.
Fixpoint flat_run (c : bytes) (pos : N) (l : list op) : list answer :=
  match l with [] => [] | o :: l' => let '(pos, a) := flat_op c pos o in a :: flat_run c pos l' end.

(** ** A set on disk *)
(** some archive header of the volume lacks the flag for names with part in them *)
Definition old_numbering (v : volume) : bool :=
  existsb (fun i => (head_ty (fst i) =? 0x73) && negb (has (head_flags (fst i)) 0x10)) (v_items v).
(** archive headers have a body; files are stored, unless [any] *)
Definition readable (any : bool) (i : item) : Prop :=
  match fst i with
  | HBlock _ ty _ body _ => ty = 0x73 -> body <> []
  | HFile h _ => any = true \/ h_method h = 0x30
  | _ => True
  end.
(** the volumes from number [first] on, all there are *)
Definition on_disk (f : fs) (s : style) (first : N) (any : bool) (vols : list volume) : Prop :=
  style_ok s /\ first + N.of_nat (length vols) < vol_limit s /\
  Forall (fun v => volume_ok v /\ Forall (readable any) (v_items v) /\ told s (old_numbering v)) vols /\
  (forall i v, nth_error vols i = Some v -> fs_get f (vol_name s (first + N.of_nat i)) = Some (ser_volume v)) /\
  fs_get f (vol_name s (first + N.of_nat (length vols))) = None.
(** the parts of the file with this name, and its content *)
Definition parts_of (name : text) (vols : list volume) : list bytes :=
  map snd (filter (fun p => if list_eq_dec N.eq_dec (h_text (fst p)) name then true else false)
                  (concat (map pieces vols))).
(** the first volume starts a file *)
Definition starts_file (vols : list volume) : Prop :=
  match vols with
  | v :: _ => match pieces v with (h, _) :: _ => has (h_flags h) 1 = false | [] => False end
  | [] => False
  end.
(** every volume starts with a part of that file *)
Definition only_first (name : text) (vols : list volume) : Prop :=
  Forall (fun v => match pieces v with (h, _) :: _ => h_text h = name | [] => True end) vols.
(** the file asked for: by name, with either slash, or the first one *)
Definition asks (name : option text) (n : text) (vols : list volume) : Prop :=
  match name with
  | Some m => m <> [] /\ n = map (fun c => if c =? 47 then 92 else c) m
  | None => n <> [] /\ only_first n vols
  end.
(** the first part has bytes, or no part has *)
Definition first_full (parts : list bytes) : Prop :=
  match parts with [] => False | d :: _ => d <> [] \/ concat parts = [] end.

(** ** The calls on a stream, one after the other *)
Definition origin_of (w : whence) : N := match w with FromStart => 0 | FromHere => 1 | FromEnd => 2 end.
Definition stream_op (f : fs) (t : stream) (o : op) : stream * answer :=
  match o with
  | OSeek off w => match seek t off (origin_of w) with Ok (t', p) => (t', Pos p) | Err _ => (t, Refused) end
  | OTell => (t, Pos (tell t))
  | ORead size => match read f t size with Ok (t', d) => (t', Data d) | Err _ => (t, Refused) end
  end.
Fixpoint stream_run (f : fs) (t : stream) (l : list op) : list answer :=
  match l with [] => [] | o :: l' => let '(t, a) := stream_op f t o in a :: stream_run f t l' end.
