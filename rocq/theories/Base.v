(** Base: bytes, text, integers packed in bytes, exceptions as values.

    Models the Python runtime pieces the code under study uses:
    [bytes] slices, [struct] little/big endian packing, str.encode("utf-8"),
    bytes.decode("utf-8"), windows-1252 and utf-16le decoding. *)
From Coq Require Export String Ascii.
From Coq Require Export Strings.Byte.
From Coq Require Export NArith ZArith Bool List.
Export ListNotations.
Open Scope N_scope.
Open Scope list_scope.

Arguments N.add : simpl never.
Arguments N.sub : simpl never.
Arguments N.mul : simpl never.
Arguments N.div : simpl never.
Arguments N.modulo : simpl never.
Arguments N.pow : simpl never.
Arguments N.land : simpl never.
Arguments N.lor : simpl never.
Arguments N.lxor : simpl never.
Arguments N.shiftl : simpl never.
Arguments N.shiftr : simpl never.
Arguments N.testbit : simpl never.

Definition bytes := list byte.
(** Python [str]: a list of code points. *)
Definition text := list N.

(** Literals. *)
Definition str (s : string) : text := map N_of_ascii (list_ascii_of_string s).
Definition bstr (s : string) : bytes := list_byte_of_string s.

(** Exceptions raised by the Python code, as values.  [OutOfFuel] is not a Python
    exception: it marks that a bounded model loop was cut off. [NotModelled] marks calls that
    leave the modelled code (e.g. running a RAR executable). *)
Inductive exn : Type :=
| StructError | EnvironmentError | ValueError | AttributeError | IndexError
| UnicodeError | AssertionError | KeyError | TypeError | OSError
| FileNotFound | InvalidFileSize | DupeFileName | NotSrrFile | EmptySfv
| OverflowError | UnboundLocal | ZeroDivision | RuntimeError | NotModelled | OutOfFuel.

Inductive result (A : Type) : Type :=
| Ok (a : A)
| Err (e : exn).
Arguments Ok {A} a.
Arguments Err {A} e.

Definition bind {A B} (r : result A) (f : A -> result B) : result B :=
  match r with Ok a => f a | Err e => Err e end.
Notation "'do' x <- a ; b" := (bind a (fun x => b))
  (at level 200, x pattern, a at level 100, b at level 200, right associativity).

Fixpoint mapR {A B} (f : A -> result B) (l : list A) : result (list B) :=
  match l with
  | [] => Ok []
  | x :: t => do y <- f x; do ys <- mapR f t; Ok (y :: ys)
  end.

Fixpoint foldR {A S} (f : S -> A -> result S) (l : list A) (s : S) : result S :=
  match l with
  | [] => Ok s
  | x :: t => do s' <- f s x; foldR f t s'
  end.

(** Lengths and slices counted in [N] (so that 32 bit sizes compute). *)
Fixpoint lenN {A} (l : list A) : N :=
  match l with [] => 0 | _ :: t => N.succ (lenN t) end.

Fixpoint takeN {A} (n : N) (l : list A) : list A :=
  match l with
  | [] => []
  | x :: t => if n =? 0 then [] else x :: takeN (N.pred n) t
  end.

Fixpoint dropN {A} (n : N) (l : list A) : list A :=
  match l with
  | [] => []
  | x :: t => if n =? 0 then l else dropN (N.pred n) t
  end.

(** Python slice l[off:off+len] for non-negative bounds. *)
Definition sub {A} (off len : N) (l : list A) : list A := takeN len (dropN off l).

(** [n] copies of [x]. *)
Definition repN {A} (n : N) (x : A) : list A := repeat x (N.to_nat n).

(** Bytes and numbers. *)
Definition b2n (b : byte) : N := Byte.to_N b.
Definition n2b (n : N) : byte :=
  match Byte.of_N (n mod 256) with Some b => b | None => x00 end.

(** Little endian, [k] bytes (struct "<B", "<H", "<I", "<Q" for k = 1, 2, 4, 8). *)
Fixpoint le (k : nat) (n : N) : bytes :=
  match k with O => [] | S k' => n2b n :: le k' (n / 256) end.
Fixpoint unle (l : bytes) : N :=
  match l with [] => 0 | b :: t => b2n b + 256 * unle t end.
Definition be (k : nat) (n : N) : bytes := rev (le k n).
Definition unbe (l : bytes) : N := unle (rev l).

(** struct.pack: struct.error when the number does not fit. *)
Definition pack (k : nat) (n : N) : result bytes :=
  if n <? 2 ^ (8 * N.of_nat k) then Ok (le k n) else Err StructError.

(** struct.unpack_from(fmt, buf, off)[0]: struct.error when the buffer is short. *)
Definition unpack (k : nat) (buf : bytes) (off : N) : result N :=
  let s := sub off (N.of_nat k) buf in
  if lenN s =? N.of_nat k then Ok (unle s) else Err StructError.

(** [x & mask] used as a truth value. *)
Definition has (flags mask : N) : bool := negb (N.land flags mask =? 0).

Fixpoint list_eqb {A} (eqb : A -> A -> bool) (a b : list A) : bool :=
  match a, b with
  | [], [] => true
  | x :: a', y :: b' => eqb x y && list_eqb eqb a' b'
  | _, _ => false
  end.
Definition beqb (a b : bytes) : bool := list_eqb Byte.eqb a b.
Definition teqb (a b : text) : bool := list_eqb N.eqb a b.

Fixpoint starts_with {A} (eqb : A -> A -> bool) (p l : list A) : bool :=
  match p, l with
  | [], _ => true
  | x :: p', y :: l' => eqb x y && starts_with eqb p' l'
  | _ :: _, [] => false
  end.

(** bytes.find / str.find: index of the first occurrence. *)
Fixpoint find_sub {A} (eqb : A -> A -> bool) (p l : list A) : option N :=
  if starts_with eqb p l then Some 0
  else match l with
       | [] => None
       | _ :: t => option_map N.succ (find_sub eqb p t)
       end.

Definition mem_text (x : text) (l : list text) : bool := existsb (teqb x) l.

(** ** UTF-8 (CPython strict codec) *)

Definition is_surrogate (c : N) : bool := (0xD800 <=? c) && (c <=? 0xDFFF).

(** One code point; None is UnicodeEncodeError (lone surrogate) or not a code point. *)
Definition utf8_enc1 (c : N) : option bytes :=
  if c <? 0x80 then Some [n2b c]
  else if c <? 0x800 then
    Some [n2b (0xC0 + c / 64); n2b (0x80 + c mod 64)]
  else if is_surrogate c then None
  else if c <? 0x10000 then
    Some [n2b (0xE0 + c / 4096); n2b (0x80 + (c / 64) mod 64); n2b (0x80 + c mod 64)]
  else if c <? 0x110000 then
    Some [n2b (0xF0 + c / 262144); n2b (0x80 + (c / 4096) mod 64);
          n2b (0x80 + (c / 64) mod 64); n2b (0x80 + c mod 64)]
  else None.

Fixpoint utf8_enc (t : text) : option bytes :=
  match t with
  | [] => Some []
  | c :: t' =>
    match utf8_enc1 c, utf8_enc t' with
    | Some a, Some b => Some (a ++ b)
    | _, _ => None
    end
  end.

(** Continuation byte value. *)
Definition cont (b : byte) : option N :=
  let n := b2n b in if (0x80 <=? n) && (n <? 0xC0) then Some (n - 0x80) else None.

Fixpoint utf8_dec (l : bytes) : option text :=
  match l with
  | [] => Some []
  | b0 :: t0 =>
    let n := b2n b0 in
    if n <? 0x80 then option_map (cons n) (utf8_dec t0)
    else if n <? 0xC2 then None
    else if n <? 0xE0 then
      match t0 with
      | b1 :: t1 =>
        match cont b1 with
        | Some c1 => option_map (cons ((n - 0xC0) * 64 + c1)) (utf8_dec t1)
        | None => None
        end
      | [] => None
      end
    else if n <? 0xF0 then
      match t0 with
      | b1 :: b2 :: t2 =>
        match cont b1, cont b2 with
        | Some c1, Some c2 =>
          let c := (n - 0xE0) * 4096 + c1 * 64 + c2 in
          if (c <? 0x800) || is_surrogate c then None
          else option_map (cons c) (utf8_dec t2)
        | _, _ => None
        end
      | _ => None
      end
    else if n <? 0xF5 then
      match t0 with
      | b1 :: b2 :: b3 :: t3 =>
        match cont b1, cont b2, cont b3 with
        | Some c1, Some c2, Some c3 =>
          let c := (n - 0xF0) * 262144 + c1 * 4096 + c2 * 64 + c3 in
          if (c <? 0x10000) || (0x110000 <=? c) then None
          else option_map (cons c) (utf8_dec t3)
        | _, _, _ => None
        end
      | _ => None
      end
    else None
  end.

Definition encode_utf8 (t : text) : result bytes :=
  match utf8_enc t with Some b => Ok b | None => Err UnicodeError end.
Definition decode_utf8 (b : bytes) : result text :=
  match utf8_dec b with Some t => Ok t | None => Err UnicodeError end.

(** ** bytes.decode("windows-1252", "replace") *)
Definition cp1252_hi : list N :=
  [0x20AC; 0xFFFD; 0x201A; 0x0192; 0x201E; 0x2026; 0x2020; 0x2021;
   0x02C6; 0x2030; 0x0160; 0x2039; 0x0152; 0xFFFD; 0x017D; 0xFFFD;
   0xFFFD; 0x2018; 0x2019; 0x201C; 0x201D; 0x2022; 0x2013; 0x2014;
   0x02DC; 0x2122; 0x0161; 0x203A; 0x0153; 0xFFFD; 0x017E; 0x0178].
Definition cp1252_1 (b : byte) : N :=
  let n := b2n b in
  if (0x80 <=? n) && (n <? 0xA0) then nth (N.to_nat (n - 0x80)) cp1252_hi 0xFFFD else n.
Definition cp1252 (l : bytes) : text := map cp1252_1 l.

(** ** bytearray.decode("utf-16le", "replace"), on 16 bit units *)
Fixpoint utf16_units (l : list N) : text :=
  match l with
  | [] => []
  | u :: t =>
    if (0xD800 <=? u) && (u <? 0xDC00) then
      match t with
      | v :: t' =>
        if (0xDC00 <=? v) && (v <? 0xE000)
        then (0x10000 + (u - 0xD800) * 1024 + (v - 0xDC00)) :: utf16_units t'
        else 0xFFFD :: utf16_units t
      | [] => [0xFFFD]
      end
    else if (0xDC00 <=? u) && (u <? 0xE000) then 0xFFFD :: utf16_units t
    else u :: utf16_units t
  end.

(** str.lower / upper restricted to ASCII letters. *)
Definition lower1 (c : N) : N := if (65 <=? c) && (c <=? 90) then c + 32 else c.
Definition lower (t : text) : text := map lower1 t.
