(** Checksums and hashes: C14, C15, C16, C24. *)
From Verif Require Import Base Crc CrcSpec Combine Oso OsoSpec RecovSpec Srr RebuildThms CrcFacts OsoFacts RecovFacts RecovThms.

(** C14: the ISDb hash *)
Theorem C14_hash : forall d, 65536 <= lenN d ->
  exists h, osorg_hash d = Ok (h, lenN d) /\ hex_of h (isdb_number d).
Proof. exact oso_thm. Qed.
Print Assumptions C14_hash.
Theorem C14_small : forall d, lenN d < 65536 -> osorg_hash d = Err ValueError.
Proof. exact oso_short. Qed.
Print Assumptions C14_small.
(** 64 KiB of zeros but for the second byte, which is 1 *)
Example C14_example :
  65536 <= lenN one_file /\ osorg_hash one_file = Ok (str "0000000000010200", 65536).
Proof. split; [rewrite one_length; discriminate|exact one_hash]. Qed.

(** C15: the sum of a concatenation *)
Theorem C15_combine : forall a b ca cb c, is_crc32 a ca -> is_crc32 b cb ->
  crc32_combine ca cb (lenN b) = Ok c <-> is_crc32 (a ++ b) c.
Proof. exact combine_thm. Qed.
Print Assumptions C15_combine.
Example C15_example :
  is_crc32 (bstr "hello ") 0xED81F9F6 /\ is_crc32 (bstr "world") 0x3A771143 /\
  crc32_combine 0xED81F9F6 0x3A771143 5 = Ok 0x0D4A1185.
Proof.
  split; [apply file_crc; vm_compute; reflexivity|].
  split; [apply file_crc; vm_compute; reflexivity|vm_compute; reflexivity].
Qed.

(** C16: a file's CRC-32 is the one of the definition, and there is only one *)
Theorem C16_file : forall d c, calculate_crc32 d = Ok c <-> is_crc32 d c.
Proof. exact file_crc. Qed.
Print Assumptions C16_file.
(** the same for zlib.crc32, also when the data comes in pieces *)
Theorem C16_zlib : forall d, is_crc32 d (crc32 d).
Proof. exact crc32_is. Qed.
Print Assumptions C16_zlib.
Theorem C16_pieces : forall a b s, zcrc32 (a ++ b) s = zcrc32 b (zcrc32 a s).
Proof. exact zcrc32_app. Qed.
Print Assumptions C16_pieces.
Example C16_example : is_crc32 (bstr "123456789") 0xCBF43926 /\
  calculate_crc32 (repN 100 x61) = Ok 0xAF707A64.
Proof. split; [apply file_crc; vm_compute; reflexivity|vm_compute; reflexivity]. Qed.

(** C24: the bytes written for a recovery record with header [raw], [rs] parity sectors and room for the
    sums of [ds] sectors, behind the volume [d] written so far *)
Theorem C24_record : forall raw rs ds d, 0 < rs -> d <> [] ->
  N.of_nat (sector_count d) <= ds ->
  recovery_bytes raw rs ds d = Ok (raw ++ rr_data (N.to_nat rs) (N.to_nat ds) d).
Proof. exact recovery_fits. Qed.
Print Assumptions C24_record.
(** no room for all sums: nothing is written *)
Theorem C24_too_small : forall raw rs ds d, 0 < rs -> d <> [] ->
  ds < N.of_nat (sector_count d) -> recovery_bytes raw rs ds d = Err IndexError.
Proof. exact recovery_small. Qed.
Print Assumptions C24_too_small.
(** what the layout of [rr_data] amounts to, byte by byte: the sums *)
Theorem C24_sums : forall rs ds d k, (k < sector_count d)%nat -> exists c,
  is_crc32 (sector d k) c /\
  sub (2 * N.of_nat k) 2 (rr_data rs ds d) = le 2 ((4294967295 - c) mod 65536).
Proof. exact rr_sums. Qed.
Print Assumptions C24_sums.
(** the parity sectors: position [j] of all sectors of slice [i] together with the parity is zero *)
Theorem C24_parity : forall rs ds d i j, (i < rs)%nat -> (j < 512)%nat -> (sector_count d <= ds)%nat ->
  fold_right (fun k a => N.lxor (b2n (nth j (sector d k) x00)) a)
    (b2n (nth (2 * ds + 512 * i + j) (rr_data rs ds d) x00))
    (filter (fun k => Nat.eqb (k mod rs) i) (seq 0 (sector_count d))) = 0.
Proof. exact rr_parity. Qed.
Print Assumptions C24_parity.
Example C24_example :
  let d := repN 600 x41 ++ [x07] in
  sector_count d = 2%nat /\
  recovery_bytes (bstr "head") 1 2 d = Ok (bstr "head" ++ rr_data 1 2 d) /\
  nth (N.to_nat (4 + 88)) (rr_data 1 2 d) x00 = x46 /\
  recovery_bytes [] 1 1 d = Err IndexError.
Proof. vm_compute. repeat split. Qed.
