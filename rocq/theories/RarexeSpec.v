(** RarexeSpec: which executables and thread counts to try; names of the application. *)
From Coq Require Import Sorted Permutation.
From Verif Require Import Base Rarexe Srr.

(** alphabetic order of texts; for dates of the form 2006-03-29 that is the order in time *)
Inductive earlier : text -> text -> Prop :=
| earlier_end c t : earlier [] (c :: t)
| earlier_here a b s t : a < b -> earlier (a :: s) (b :: t)
| earlier_next a s t : earlier s t -> earlier (a :: s) (a :: t).
Definition digit_c (c : N) : Prop := 48 <= c <= 57.
(** a file that is an executable: 2006-03-29_rar360b1.exe *)
Definition exe_file (f : text) (e : exe) : Prop :=
  exists y1 y2 y3 y4 m1 m2 d1 d2 a b c r, Forall digit_c [y1; y2; y3; y4; m1; m2; d1; d2; a; b; c] /\
  f = [y1; y2; y3; y4; 45; m1; m2; 45; d1; d2] ++ str "_rar" ++ [a; b; c] ++ r /\
  e = mkExe f [y1; y2; y3; y4; 45; m1; m2; 45; d1; d2] (a - 48) ((b - 48) * 10 + (c - 48)).
(** those of a folder, in order *)
Inductive exe_files : list text -> list exe -> Prop :=
| ef_nil : exe_files [] []
| ef_exe f e fs es : exe_file f e -> exe_files fs es -> exe_files (f :: fs) (e :: es)
| ef_other f fs es : ~ (exists e, exe_file f e) -> exe_files fs es -> exe_files (f :: fs) es.
(** The first that is not older than the date; then all that are older, newest first; then the rest, oldest first *)
Definition good_order (date : text) (l : list exe) : Prop :=
  exists a b c, l = a ++ b ++ c /\ (length a <= 1)%nat /\ (a = [] -> c = []) /\
  Forall (fun e => earlier (x_date e) date) b /\ Forall (fun e => ~ earlier (x_date e) date) (a ++ c) /\
  StronglySorted (fun x y => ~ earlier (x_date y) (x_date x)) (a ++ c) /\
  StronglySorted (fun x y => ~ earlier (x_date x) (x_date y)) b.

(** thread counts an executable takes, -mt<threads>: 0..16 before version 4.20, and 1..32 since *)
Definition takes (e : exe) (n : Z) : Prop :=
  (if (x_major e * 100 + x_minor e <? 420)%N then 0 <= n <= 16 else 1 <= n <= 32)%Z.
(** within the limits of the user; a limit of 0 (or less) is no limit *)
Definition limits (s : mt) (n : Z) : Prop := ((0 < mt_min s -> mt_min s <= n) /\ (0 < mt_max s -> n <= mt_max s))%Z.
Definition allowed (s : mt) (e : exe) (n : Z) : Prop := takes e n /\ limits s n /\ (mt_set s <> [] -> In n (mt_set s)).
(** the user gave a set, or limits that do not exclude each other *)
Definition settings_ok (s : mt) : Prop := mt_set s <> [] \/ (0 < mt_min s -> 0 < mt_max s -> mt_min s <= mt_max s)%Z.

(** Unicode scalar values, and the bytes they take in UTF-8 *)
Definition scalar (c : N) : Prop := c < 0xD800 \/ 0xE000 <= c < 0x110000.
Definition utf8_width (c : N) : N := if c <? 0x80 then 1 else if c <? 0x800 then 2 else if c <? 0x10000 then 3 else 4.
Definition utf8_size (t : text) : N := fold_right (fun c n => utf8_width c + n) 0 t.
(** everything but the name is in order: an SRR can be created with the name "x" *)
Definition creatable (stores vols : list (text * bytes)) compressed osos : Prop :=
  exists b, create_srr (str "x") stores vols compressed osos = Ok b.
