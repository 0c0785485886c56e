(** YencSpec: yEnc articles (yenc-draft.1.3). *)
From Coq Require Import Permutation.
From Verif Require Import Base.

(** A byte is moved up by 42.  NUL, LF, CR and = have to be escaped, some others may be: then 64 is added
    again.  The characters that may be escaped here are TAB, ESC, SPACE and DOT. *)
Definition moved (b : byte) : N := (b2n b + 42) mod 256.
Inductive ychar : byte -> bytes -> Prop :=
| yc_plain b : ~ In (moved b) [0; 10; 13; 61] -> ychar b [n2b (moved b)]
| yc_escape b : In (moved b) [0; 9; 10; 13; 27; 32; 46; 61] -> ychar b [x3d; n2b (moved b + 64)].
Definition yencoded (d e : bytes) : Prop := exists es, Forall2 ychar d es /\ e = concat es.
(** any escape, as the draft allows *)
Inductive ychar_any : byte -> bytes -> Prop :=
| ya_plain b : ~ In (moved b) [0; 10; 13; 61] -> ychar_any b [n2b (moved b)]
| ya_escape b : ychar_any b [x3d; n2b (moved b + 64)].
(** NNTP doubles a dot at the start of a line *)
Definition dotted (l : bytes) : bytes := match l with x2e :: _ => x2e :: l | _ => l end.

(** ** Control lines: fields of the form key=value, with a space in front of each *)
Definition space_b (b : byte) : Prop := In (b2n b) [9; 10; 11; 12; 13; 32].
Definition key_b (b : byte) : Prop := 48 <= b2n b <= 57 \/ 65 <= b2n b <= 90 \/ 97 <= b2n b <= 122.
(** a value without spaces and equals signs; a name without spaces at its ends *)
Definition word (v : bytes) : Prop := Forall (fun b => ~ space_b b /\ b <> x3d) v.
Definition trimmed (v : bytes) : Prop :=
  (forall x r, v = x :: r -> ~ space_b x) /\ (forall x r, v = r ++ [x] -> ~ space_b x).
Definition field (kv : bytes * bytes) : bytes := x20 :: fst kv ++ x3d :: snd kv.
Definition fields_ok (fs : list (bytes * bytes)) : Prop :=
  Forall (fun kv => fst kv <> [] /\ Forall key_b (fst kv) /\ word (snd kv)) fs /\ NoDup (map fst fs).
Definition holds_in (p l : bytes) : Prop := exists a b, l = a ++ p ++ b.

Definition begin_line (fs : list (bytes * bytes)) (name : bytes) : bytes :=
  bstr "=ybegin" ++ concat (map field fs) ++ bstr " name=" ++ name.
Definition part_line (fs : list (bytes * bytes)) : bytes := bstr "=ypart" ++ concat (map field fs).
Definition end_line (fs : list (bytes * bytes)) : bytes := bstr "=yend" ++ concat (map field fs).
(** The name stands last.  It may hold spaces and equals signs, but neither " part=" nor " total=" if
    that field is not there. *)
Definition begin_ok (part total : bool) (fs : list (bytes * bytes)) (name : bytes) : Prop :=
  fields_ok fs /\
  Permutation (map fst fs) ([bstr "line"; bstr "size"] ++ (if part then [bstr "part"] else []) ++ (if total then [bstr "total"] else [])) /\
  trimmed name /\ (part = false -> ~ holds_in (bstr " part=") name) /\ (total = false -> ~ holds_in (bstr " total=") name).
