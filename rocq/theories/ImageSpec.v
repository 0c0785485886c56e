(** ImageSpec: image files. *)
From Verif Require Import Base.

(** a block of a JPEG file: bytes FF, the type, the size and the data *)
Record block := mkBlock { b_fill : N; b_type : byte; b_data : bytes }.
Definition frame (t : N) : Prop := 0xC0 <= t <= 0xCF /\ t <> 0xC4 /\ t <> 0xC8 /\ t <> 0xCC.
Definition block_ok (b : block) : Prop := 1 <= b_fill b /\ b2n (b_type b) <> 0xFF /\ ~ frame (b2n (b_type b)) /\ lenN (b_data b) + 2 < 0x10000.
Definition ser_block (b : block) : bytes := repN (b_fill b) xff ++ [b_type b] ++ be 2 (lenN (b_data b) + 2) ++ b_data b.
(** the frame with the size; [rest] is what follows *)
Definition jpeg (bs : list block) (fill : N) (t : byte) (size : bytes) (precision : byte) (height width : N) (rest : bytes) : bytes :=
  [xff; xd8] ++ flat_map ser_block bs ++ repN fill xff ++ [t] ++ size ++ [precision] ++ be 2 height ++ be 2 width ++ rest.
(** files of cameras, programs and those with a profile of colours *)
Definition known_first (bs : list block) : Prop := exists b bs' d, bs = b :: bs' /\ b_fill b = 1 /\
  ((exists k, In k [bstr "JFIF"; bstr "Exif"] /\ b_data b = k ++ d) \/
   (b_type b = xe2 /\ b_data b = bstr "ICC_PROFILE" ++ d) \/ (b_type b = xee /\ b_data b = bstr "Adobe" ++ d)).
Definition png (chunk : bytes) (width height : N) (rest : bytes) : bytes := [x89] ++ bstr "PNG" ++ [x0d; x0a; x1a; x0a] ++ chunk ++ be 4 width ++ be 4 height ++ rest.
Definition gif (version : bytes) (width height : N) (rest : bytes) : bytes := bstr "GIF" ++ version ++ le 2 width ++ le 2 height ++ rest.
