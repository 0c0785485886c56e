(** FakeSpec: reading a file, and volumes in which the data of some files is replaced by zero bytes. *)
From Coq Require Import ZArith.
From Verif Require Import Base RarSpec PathSpec SetSpec Fake.

(** The same blocks; the data of the parts of files that are gone is zero bytes, recovery records are of the same size
    (that they are right for the new volume is part of [store_volume]), all other data is the same. *)
Definition blanked_item (gone : text -> Prop) (x y : item) : Prop :=
  fst y = fst x /\ lenN (snd y) = lenN (snd x) /\
  match fst x with
  | HFile h _ => (gone (h_text h) -> Forall (fun b => b = x00) (snd y)) /\ (~ gone (h_text h) -> snd y = snd x)
  | HRecov _ _ _ _ _ | HOldRecov _ _ _ _ _ _ _ => True
  | _ => snd y = snd x
  end.
Definition blanked (gone : text -> Prop) (v w : volume) : Prop :=
  v_pad w = v_pad v /\ Forall2 (blanked_item gone) (v_items v) (v_items w).

(** ** Files *)
(** What a program that seeks and reads gets from a file with the content [d], from position [pos] on; seeks to places
    where there is no byte fail. *)
Inductive file_run (d : bytes) : N -> list fop -> list fres -> Prop :=
| fr_nil pos : file_run d pos [] []
| fr_seek pos z o p ops rs :
    Z.of_N p = (match o with SeekSet => 0 | SeekCur => Z.of_N pos | SeekEnd => Z.of_N (lenN d) end + z)%Z -> p < lenN d ->
    file_run d p ops rs -> file_run d pos (OSeek z o :: ops) (RPos p :: rs)
| fr_fail pos z o ops rs :
    (forall p, Z.of_N p = (match o with SeekSet => 0 | SeekCur => Z.of_N pos | SeekEnd => Z.of_N (lenN d) end + z)%Z -> lenN d <= p) ->
    file_run d pos ops rs -> file_run d pos (OSeek z o :: ops) (RFail :: rs)
| fr_all pos z x ops rs : (z < 0)%Z -> (exists a, d = a ++ x /\ lenN a = pos) ->
    file_run d (lenN d) ops rs -> file_run d pos (ORead z :: ops) (RData x :: rs)
| fr_some pos z x ops rs : (0 <= z)%Z -> (exists a b, d = a ++ x ++ b /\ lenN a = pos /\ (Z.of_N (lenN x) = z \/ (Z.of_N (lenN x) < z)%Z /\ b = [])) ->
    file_run d (pos + lenN x) ops rs -> file_run d pos (ORead z :: ops) (RData x :: rs).

(** [n] is the name of a packed file that is not on disk *)
Definition missing (disk : text -> option bytes) (n : text) : Prop := exists p, rar_path n p /\ disk p = None.
