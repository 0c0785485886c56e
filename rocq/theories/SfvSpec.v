(** SfvSpec: SFV files as text. *)
From Coq Require Import Permutation.
From Verif Require Import Base VolSpec Sfv.

Definition ascii_white (c : N) : Prop := 9 <= c <= 13 \/ c = 32.
(** white space among the characters of latin-1 *)
Definition white (c : N) : Prop := ascii_white c \/ 28 <= c <= 31 \/ c = 133 \/ c = 160.
Definition line_break (c : N) : Prop := c = 10 \/ c = 13.
Definition hex_char (c : N) : Prop := is_digit c \/ 65 <= c <= 70 \/ 97 <= c <= 102.

(** the lines of a text: a line break is CR or LF *)
Inductive lines : text -> list text -> Prop :=
| ln_last w : Forall (fun c => ~ line_break c) w -> lines w [w]
| ln_cons w c t ls : Forall (fun c => ~ line_break c) w -> line_break c -> lines t ls -> lines (w ++ c :: t) (w :: ls).

(** [n] is [t] without such characters at its ends *)
Definition trimmed (p : N -> Prop) (t n : text) : Prop :=
  exists a b, t = a ++ n ++ b /\ Forall p a /\ Forall p b /\
    (n = [] \/ (~ p (hd 0 n) /\ ~ p (last n 0))).
(** tabs become four blanks *)
Inductive untabbed : text -> text -> Prop :=
| ut_nil : untabbed [] []
| ut_tab t u : untabbed t u -> untabbed (9 :: t) (32 :: 32 :: 32 :: 32 :: u)
| ut_other c t u : c <> 9 -> untabbed t u -> untabbed (c :: t) (c :: u).

(** a line with a name and a sum: blanks or tabs between them, white space around them, quotes around the
    name.  The sum gets 8 digits. *)
Definition entry_line (l name crc : text) : Prop :=
  exists pre sep w d trail u n, l = pre ++ [sep] ++ w ++ d ++ trail /\ (sep = 32 \/ sep = 9) /\
    Forall (fun c => white c /\ c <> 32 /\ c <> 9) w /\ Forall hex_char d /\ (1 <= length d <= 8)%nat /\
    Forall ascii_white trail /\ untabbed pre u /\ trimmed white u n /\ trimmed (eq 34) n name /\
    crc = repeat 48 (8 - length d) ++ d.
Definition blank_line (l : text) : Prop := Forall ascii_white l.
Definition comment_line (l : text) : Prop := exists a r, l = a ++ 59 :: r /\ Forall ascii_white a.

(** every line that is not blank is in one of the lists *)
Inductive account : list text -> list sfv -> list text -> list text -> Prop :=
| ac_nil : account [] [] [] []
| ac_blank l ls es cs rs : blank_line l -> account ls es cs rs -> account (l :: ls) es cs rs
| ac_comment l ls es cs rs : comment_line l -> account ls es cs rs -> account (l :: ls) es (l :: cs) rs
| ac_entry l ls es cs rs name crc : ~ comment_line l -> entry_line l name crc -> account ls es cs rs ->
    account (l :: ls) (mkSfv name crc :: es) cs rs
| ac_error l l' t ls es cs rs : ~ blank_line l -> ~ comment_line l -> (forall name crc, ~ entry_line l name crc) ->
    l = l' ++ t -> Forall ascii_white t -> ~ ascii_white (last l' 0) -> account ls es cs rs ->
    account (l :: ls) es cs (l' :: rs).

(** a file name that can be written in an SFV file as it is *)
Definition plain_name (n : text) : Prop :=
  n <> [] /\ Forall (fun c => c < 256 /\ c <> 9 /\ c <> 10 /\ c <> 13) n /\
  ~ white (hd 0 n) /\ ~ white (last n 0) /\ hd 0 n <> 34 /\ last n 0 <> 34 /\ hd 0 n <> 59.
Definition full_crc (c : text) : Prop := length c = 8%nat /\ Forall hex_char c.
Definition row_ok (e : sfv) : Prop := plain_name (e_name e) /\ full_crc (e_crc e).
(** characters below 256 as bytes *)
Definition undo (t : text) : bytes := map n2b t.
(** name, blank, sum, CR, LF *)
Definition ser_entry (e : sfv) : text := e_name e ++ [32] ++ e_crc e ++ [13; 10].

(** ** Order *)
Definition small (c : N) : N := if (65 <=? c) && (c <=? 90) then c + 32 else c.
(** an SFV file of a set, in some order, perhaps with lines repeated; the sums of repeated lines agree but for case *)
Definition sfv_of_set (s : style) (n : nat) (l : list sfv) : Prop :=
  (forall x, In x (vol_names s n) <-> In x (map e_name l)) /\
  (forall a b, In a l -> In b l -> e_name a = e_name b -> map small (e_crc a) = map small (e_crc b)).
(** [r] is [l] in order *)
Definition sorting (l r : list sfv) : Prop :=
  Permutation l r /\ forall i a b, nth_error r i = Some a -> nth_error r (S i) = Some b -> sfv_lt b a = false.
(** the same characters of latin-1 but for case *)
Definition capital (c : N) : Prop := 65 <= c <= 90 \/ (192 <= c <= 222 /\ c <> 215).
Definition same_letter (c d : N) : Prop := c = d \/ (capital c /\ d = c + 32) \/ (capital d /\ c = d + 32).
Definition same_text : text -> text -> Prop := Forall2 same_letter.
