(** OsoSpec: the ISDb (opensubtitles) hash of a file. *)
From Verif Require Import Base SrrSpec.

(** the little-endian 64 bit word number [i] *)
Definition word (d : bytes) (i : nat) : N :=
  fold_right (fun j a => b2n (nth (8 * i + j) d x00) * 256 ^ N.of_nat j + a) 0 (seq 0 8).
(** sum of the first 8192 words *)
Definition words_sum (d : bytes) : N := fold_right N.add 0 (map (word d) (seq 0 (N.to_nat 8192))).
Definition isdb_number (d : bytes) : N :=
  (lenN d + words_sum d + words_sum (dropN (lenN d - 65536) d)) mod 2 ^ 64.
(** 16 lower case hexadecimal digits *)
Definition hex_of (h : text) (v : N) : Prop :=
  exists ds, length ds = 16%nat /\ Forall (fun d => (d < 16)%nat) ds /\ h = map (fun d => nth d HEX 0) ds /\
    v = fold_left (fun a d => 16 * a + N.of_nat d) ds 0.
