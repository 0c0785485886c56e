(** NntpEx: posted files for the examples of C64. *)
From Verif Require Import Base BaseFacts Nntp NntpSpec.

(** a server that has the segments of [f]; the lines behind the two first ones have [width] bytes each *)
Definition serve (name : text) (f : bytes) (size : N) (width : N) (i : N) (lines : Z) : result dpart :=
  let g := segment_of f size i in
  Ok (mkD (lenN f) i (lenN g) (if (lines <=? 1)%Z then g else takeN (Z.to_N (lines - 2) * width) g) name).
Lemma serve_posted name f size width : 0 < size <= lenN f -> posted (serve name f size width) name f size.
Proof.
  intros H. split; [exact H|]. intros i lines _. unfold serve. destruct (Z.leb_spec lines 1) as [L|L].
  - exists (segment_of f size i), []. rewrite app_nil_r. auto.
  - exists (takeN (Z.to_N (lines - 2) * width) (segment_of f size i)), (dropN (Z.to_N (lines - 2) * width) (segment_of f size i)). split; [reflexivity|]. split; [symmetry; apply takeN_dropN|]. lia.
Qed.
Definition e_name : text := str "a.nfo".
Definition e_file : bytes := bstr "ABCDEFGHIJKLMNOPQRSTUVWXYZ".
Definition e_nzb : list (N * N) := [(2, 100); (1, 100); (4, 30); (3, 100)].
Lemma e_complete : complete e_nzb e_file 8.
Proof. intros i. change (segments e_file 8) with 4. cbn. lia. Qed.
Lemma e_posted : posted (serve e_name e_file 8 4) e_name e_file 8.
Proof. apply serve_posted. vm_compute. now split. Qed.
Definition r_name : text := str "a.rar".
(** a volume with a text *)
Definition r_file : bytes := bstr "Rar!" ++ [x1a; x07; x00] ++ bstr "this is the text of an nfo file".
Definition r_nzb : list (N * N) := [(1, 100)].
Lemma r_complete : complete r_nzb r_file 38.
Proof. intros i. change (segments r_file 38) with 1. cbn. lia. Qed.
Lemma r_posted : posted (serve r_name r_file 38 4) r_name r_file 38.
Proof. apply serve_posted. vm_compute. now split. Qed.
Lemma e_len : lenN e_file = 26.
Proof. reflexivity. Qed.
