(** EbmlSpec: EBML numbers and the lacing of Matroska blocks, from the format descriptions. *)
From Verif Require Import Base.

(** the number [v] in [w] bytes: 7 bits a byte, in front of them as many bits as there are bytes, the last one set *)
Definition vint (w : nat) (v : N) : bytes := be w (2 ^ (7 * N.of_nat w) + v).
Definition vint_ok (w : nat) (v : N) : Prop := (1 <= w <= 8)%nat /\ v < 2 ^ (7 * N.of_nat w).

(** sizes by Xiph lacing: 255 as often as it fits, then the rest *)
Definition xiph_code (n : N) : bytes := repN (n / 255) xff ++ [n2b (n mod 255)].
(** sizes by EBML lacing: the difference to the size before, in the middle of the range of [w] bytes *)
Inductive ebml_code : N -> list N -> bytes -> Prop :=
| ec_nil p : ebml_code p [] []
| ec_cons p n w v l b :
    (Z.of_N n - Z.of_N p = Z.of_N v - (2 ^ (7 * Z.of_nat w - 1) - 1))%Z -> vint_ok w v ->
    ebml_code n l b -> ebml_code p (n :: l) (vint w v ++ b).
(** type of lacing, sizes of the frames, the bytes in front of the frames *)
Inductive laced : N -> list N -> bytes -> Prop :=
| laced_none n : laced 0 [n] []
| laced_fixed n c : 1 <= c <= 256 -> laced 4 (repN c n) [n2b (c - 1)]
| laced_xiph l n : lenN l < 256 -> laced 2 (l ++ [n]) (n2b (lenN l) :: concat (map xiph_code l))
| laced_ebml_one n : laced 6 [n] [x00]
| laced_ebml p w l n b : vint_ok w p -> ebml_code p l b -> lenN l < 255 ->
    laced 6 (p :: l ++ [n]) (n2b (1 + lenN l) :: vint w p ++ b).
Definition total (l : list N) : N := fold_right N.add 0 l.
