(** C86: the search for a wrong bit or byte. *)
From Verif Require Import Base Crc CrcSpec CrcFacts Bitflip BitflipSpec BitflipFacts BitflipEx.

(** within the file no key of the table is missing, and no assertion fails, whatever the size of the parts *)
Theorem C86_total : forall asserts m skip expected range d a b, places range d a b -> a <= b -> 0 < skip ->
  exists r, bitflip asserts m skip expected range d = Ok r.
Proof. exact total_thm. Qed.
Print Assumptions C86_total.
Example C86_total_ex : places (Some (1, 7)) wrong 1 3 /\ bitflip true MBit 2 (crc32 right) None wrong = Ok (Some right).
Proof. exact (conj (conj eq_refl eq_refl) ex_found). Qed.

(** the file that is written has the CRC, is changed at one place of the range, and no place before it gives the CRC *)
Theorem C86_found : forall asserts m skip expected range d a b d', places range d a b -> a <= b -> 0 < skip ->
  bitflip asserts m skip expected range d = Ok (Some d') ->
  is_crc32 d' expected /\ exists p, change_at m a b p d d' /\ forall q e, change_at m a b q d e -> q < p -> ~ is_crc32 e expected.
Proof. exact found_thm. Qed.
Print Assumptions C86_found.
Example C86_found_ex : bitflip false MSwitch 1 (crc32 (bstr "abb")) (Some (2, 9)) (bstr "aba") = Ok (Some (bstr "abb")).
Proof. exact ex_switch. Qed.

(** nothing is found only if there is nothing *)
Theorem C86_none : forall asserts m skip expected range d a b, places range d a b -> a <= b -> 0 < skip ->
  bitflip asserts m skip expected range d = Ok None <-> forall e, change m a b d e -> ~ is_crc32 e expected.
Proof. exact none_thm. Qed.
Print Assumptions C86_none.
Example C86_none_ex : bitflip true MSwitch 2 (crc32 right) (Some (1, 2)) wrong = Ok None.
Proof. exact ex_none. Qed.

(** the file that was sent is the one that is written.  Missing: files of 512 MiB and more, and the search for a byte (see below). *)
Theorem C86_exact_partial : forall asserts m skip expected range d a b d', m <> MByte -> lenN d < 2 ^ 29 -> places range d a b -> 0 < skip ->
  change m a b d d' -> is_crc32 d' expected -> bitflip asserts m skip expected range d = Ok (Some d').
Proof. exact exact_thm. Qed.
Print Assumptions C86_exact_partial.
Example C86_exact_partial_ex : change MBit 0 3 wrong right /\ is_crc32 right (crc32 right).
Proof. exact (conj ex_change (crc32_is right)). Qed.

(** the search for a byte of a file that is right writes the same file *)
Theorem C86_same : forall asserts skip expected range d a b, places range d a b -> a < b -> 0 < skip ->
  is_crc32 d expected -> bitflip asserts MByte skip expected range d = Ok (Some d).
Proof. exact same_thm. Qed.
Print Assumptions C86_same.
Example C86_same_ex : bitflip true MByte 5 (crc32 (bstr "a")) None (bstr "a") = Ok (Some (bstr "a")).
Proof. exact ex_same. Qed.

(** at 512 MiB the wrong bit may be taken: the CRC repeats after 2^32 - 1 bits *)
Theorem C86_long_refuted : forall asserts skip, 0 < skip -> exists d d' c, lenN d = 2 ^ 29 /\ change MBit 0 (lenN d) d d' /\ is_crc32 d' c /\
  bitflip asserts MBit skip c None d <> Ok (Some d').
Proof. exact long_thm. Qed.
Print Assumptions C86_long_refuted.

(** the wrong byte may be taken much earlier *)
Theorem C86_byte_refuted : forall asserts skip, 0 < skip -> exists d d' c, lenN d = 145213 /\ change MByte 0 (lenN d) d d' /\ is_crc32 d' c /\
  bitflip asserts MByte skip c None d <> Ok (Some d').
Proof. exact byte_thm. Qed.
Print Assumptions C86_byte_refuted.

(** a range that is not valid is told, and then the search stops with an error *)
Theorem C86_range_refuted : exists range expected d, bitflip true MBit 1000 expected range d = Err KeyError.
Proof. exact (ex_intro _ (Some (2, 1)) (ex_intro _ 0 (ex_intro _ wrong ex_range))). Qed.
Print Assumptions C86_range_refuted.
