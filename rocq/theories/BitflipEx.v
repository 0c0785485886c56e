(** BitflipEx: examples of the search for a wrong bit or byte. *)
From Verif Require Import Base BaseFacts Crc CrcSpec CrcFacts Combine Bitflip BitflipSpec BitflipFacts.

Definition wrong : bytes := bstr "abc".
Definition right : bytes := bstr "acc".
Lemma ex_change : change MBit 0 3 wrong right.
Proof.
  exists 1. split; [lia|]. exists (bstr "a"), "b"%byte, "c"%byte, (bstr "c"). split; [reflexivity|]. split; [reflexivity|].
  split; [reflexivity|]. exists 0. split; [reflexivity|]. apply bit_eq. reflexivity.
Qed.
Lemma ex_found : bitflip true MBit 2 (crc32 right) None wrong = Ok (Some right).
Proof. vm_compute. reflexivity. Qed.
Lemma ex_none : bitflip true MSwitch 2 (crc32 right) (Some (1, 2)) wrong = Ok None.
Proof. vm_compute. reflexivity. Qed.
Lemma ex_switch : bitflip false MSwitch 1 (crc32 (bstr "abb")) (Some (2, 9)) (bstr "aba") = Ok (Some (bstr "abb")).
Proof. vm_compute. reflexivity. Qed.
Lemma ex_range : bitflip true MBit 1000 0 (Some (2, 1)) wrong = Err KeyError.
Proof. vm_compute. reflexivity. Qed.
Lemma ex_same : bitflip true MByte 5 (crc32 (bstr "a")) None (bstr "a") = Ok (Some (bstr "a")).
Proof. apply (same_thm true 5 _ None (bstr "a") 0 1); [split; reflexivity|reflexivity|reflexivity|apply crc32_is]. Qed.
