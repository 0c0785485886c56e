(** Image: bin/pyrescene.py, the size of an image.
    A file is its bytes.  imghdr is the module of Python; [raw] says whether its test for JPEG knows files that begin with a
    table, which depends on the version. *)
From Verif Require Import Base.
Local Open Scope Z_scope.

(** slices *)
Definition at_ (b e : N) (h : bytes) : bytes := takeN (e - b) (dropN b h).
(** imghdr.test_jpeg, test_png, test_gif, and bin/pyrescene.py:384-394 test_jpeg, which is the last of all.  The comparison in
    the third of its tests is one of bytes with str.  The tests of other types are for other first bytes. *)
Inductive kind := Jpeg | Png | Gif | Other.
Definition what (raw : bool) (h : bytes) : kind :=
  let starts p := starts_with Byte.eqb p h in
  if beqb (at_ 6 10 h) (bstr "JFIF") || beqb (at_ 6 10 h) (bstr "Exif") then Jpeg
  else if raw && beqb (at_ 0 4 h) [xff; xd8; xff; xdb] then Jpeg
  else if starts ([x89] ++ bstr "PNG" ++ [x0d; x0a; x1a; x0a]) then Png
  else if beqb (at_ 0 6 h) (bstr "GIF87a") || beqb (at_ 0 6 h) (bstr "GIF89a") then Gif
  else if beqb (at_ 0 4 h) [xff; xd8; xff; xe2] && beqb (at_ 6 17 h) (bstr "ICC_PROFILE") then Jpeg
  else if beqb (at_ 0 4 h) [xff; xd8; xff; xee] && beqb (at_ 6 11 h) (bstr "Adobe") then Jpeg
  else Other.

(** struct.unpack(">i") *)
Definition signed (n : N) : Z := if (n <? 0x80000000)%N then Z.of_N n else Z.of_N n - 0x100000000.

Section Jpeg.
Variable f : bytes.
(** fhandle.read(n) at [pos], with the position afterwards *)
Definition read_at (pos : Z) (n : N) : bytes * Z := let d := takeN n (dropN (Z.to_N pos) f) in (d, pos + Z.of_N (lenN d)).
(** bin/pyrescene.py:417-420 the type of the next block; None: ord() of nothing *)
Fixpoint next_type (fuel : nat) (pos : Z) : result (N * Z) :=
  match fuel with
  | O => Err OutOfFuel
  | S fuel =>
    let '(d, pos) := read_at pos 1 in
    match d with
    | [b] => if (b2n b =? 0xff)%N then next_type fuel pos else Ok (b2n b, pos)
    | _ => Err TypeError
    end
  end.
Definition is_sof (t : N) : bool := ((0xc0 <=? t) && (t <=? 0xcf) && negb ((t =? 0xc4) || (t =? 0xc8) || (t =? 0xcc)))%N.
(** bin/pyrescene.py:415-421 the loop; the result is the position behind the size of the SOF block *)
Fixpoint to_sof (fuel : nat) (ftype : N) (pos size : Z) : result Z :=
  match fuel with
  | O => Err OutOfFuel
  | S fuel =>
    if is_sof ftype then Ok pos
    else if pos + size <? 0 then Err OSError
    else
      do p <- next_type (S (length f)) (pos + size);
      let '(t, pos) := p in
      let '(d, pos) := read_at pos 2 in
      if (lenN d =? 2)%N then to_sof fuel t pos (Z.of_N (unbe d) - 2) else Err StructError
  end.
(** bin/pyrescene.py:410-426 *)
Definition jpeg_size : result (Z * Z) :=
  do pos <- to_sof (S (S (length f))) 0 0 2;
  let '(d, _) := read_at (pos + 1) 4 in
  if (lenN d =? 4)%N then Ok (Z.of_N (unbe (at_ 2 4 d)), Z.of_N (unbe (at_ 0 2 d))) else Err StructError.
End Jpeg.
(** bin/pyrescene.py:396-429 get_image_size *)
Definition get_image_size (raw : bool) (f : bytes) : option (Z * Z) :=
  let head := takeN 24 f in
  if (lenN head =? 24)%N then
    match what raw head with
    | Png => if signed (unbe (at_ 4 8 head)) =? 0x0d0a1a0a then Some (signed (unbe (at_ 16 20 head)), signed (unbe (at_ 20 24 head))) else None
    | Gif => Some (Z.of_N (unle (at_ 6 8 head)), Z.of_N (unle (at_ 8 10 head)))
    | Jpeg => match jpeg_size f with Ok s => Some s | Err _ => None end
    | Other => None
    end
  else None.
(** bin/pyrescene.py:375-381 fixed_resolution_cover *)
Definition fixed_resolution_cover (raw : bool) (f : bytes) : bool :=
  match get_image_size raw f with Some (width, height) => (width =? 630) && (height =? 1200) | None => false end.
