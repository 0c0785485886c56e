(** UsePrepSpec: the files of an NZB file that an SRR file is made of. *)
From Verif Require Import VolSpec.
From Verif Require Import Base SrrSpec InfoSpec UsePrep.

(** the size of a posted file *)
Fixpoint total (l : list (N * seg)) : N := match l with [] => 0 | ks :: l => g_bytes (snd ks) + total l end.
Definition size (p : post) : N := total (p_segs p).
(** no number of a segment twice *)
Definition one_each (p : post) : Prop := NoDup (map fst (p_segs p)).
Definition named (n : text) (l : list post) : list post := filter (fun p => if text_dec (p_name p) n then true else false) l.
(** [p] is the first of the best ones *)
Definition first_best (gt : post -> post -> Prop) (l : list post) (p : post) : Prop :=
  exists a b, l = a ++ p :: b /\ (forall q, In q a -> gt p q) /\ (forall q, In q b -> ~ gt q p).
Definition bigger (p q : post) : Prop := size q < size p.
Definition more_entries (counts : post -> result (N * N)) (p q : post) : Prop :=
  exists e c e' c', counts p = Ok (e, c) /\ counts q = Ok (e', c') /\ (e' < e \/ e = e' /\ c' < c).
Definition inside (a b : text) : Prop := exists x y, b = x ++ a ++ y.
Definition ending (e : string) (n : text) : Prop := exists b, n = b ++ str e.
(** the last four characters in lower case *)
Definition with_ext (e : string) (n : text) : Prop := exists b x, n = b ++ x /\ lower x = str e /\ (length x = 4)%nat.
Definition letter_digit (c : N) : Prop := 48 <= c <= 57 \/ 65 <= c <= 90 \/ 97 <= c <= 122.
Definition repacked (known : text -> bool) (n : text) : Prop :=
  known n = true \/ inside (str "kere.ws") n \/ exists b x, n = b ++ x /\ (length b = 20)%nat /\ (length x = 4)%nat /\ Forall letter_digit b /\ lower x = str ".rar".
(** the SFV files that tell which volumes there are, those of subtitles are not among them *)
Definition main_sfv (p : post) : Prop := with_ext ".sfv" (p_name p) /\ ~ inside (str "subs") (p_name p).
Definition to_be_stored (p : post) : Prop :=
  with_ext ".nfo" (p_name p) \/ with_ext ".jpg" (p_name p) \/ with_ext ".png" (p_name p) \/ with_ext ".bmp" (p_name p) \/ with_ext ".srs" (p_name p) \/
  with_ext ".sfv" (p_name p) /\ inside (str "subs") (p_name p).
Definition unwanted (png_size : post -> N) (p : post) : Prop :=
  let n := p_name p in
  ending "_s.jpg" n \/ n = str "UsenetSpaceCowboys.nfo" \/ n = str "_newzNZB.nfo" \/
  ending ".jpg" n /\ ~ inside (str "proof") (lower n) /\
    (size p < 9000 \/ inside (str "-thumb.jpg") n \/ inside (str "_poster.jpg") n \/ inside (str "_s.jpg") n) \/
  ending ".png" n /\ png_size p = 592451.
(** the elements of a list with [P], in the same order *)
Inductive picked {X} (P : X -> Prop) : list X -> list X -> Prop :=
| pick_nil : picked P [] []
| pick_take x l a : P x -> picked P l a -> picked P (x :: l) (x :: a)
| pick_skip x l a : ~ P x -> picked P l a -> picked P (x :: l) a.
(** SFV files that belong at the end *)
Definition extra (n : text) : Prop := exists w, In w [str "extras"; str "proof"; str "sample"; str "subpack"] /\ inside w (lower n).
(** neither of two files with different names has all segments of the other *)
Definition distinct (P : post -> Prop) : Prop := forall p q, P p -> P q -> p_name p <> p_name q ->
  exists ks, In ks (p_segs p) /\ ~ In ks (p_segs q).
Definition by_name (p q : post) : Prop := text_before (p_name p) (p_name q).
(** no two neighbours that belong at the end *)
Definition spaced (l : list post) : Prop := forall a p q b, l = a ++ p :: q :: b -> extra (p_name p) -> ~ extra (p_name q).
(** no number of a segment is twice in a file, the SFV files can be read and have different segments *)
Definition countable (counts : post -> result (N * N)) (p : post) : Prop := exists e c, counts p = Ok (e, c).
Definition input_ok (counts : post -> result (N * N)) (l : list post) : Prop :=
  Forall one_each l /\ (forall p, In p l -> main_sfv p -> countable counts p) /\ distinct (fun p => In p l /\ main_sfv p).
Definition without_first (p : post) : Prop := rar_ending (p_name p) /\ ~ In 1 (map fst (p_segs p)).
