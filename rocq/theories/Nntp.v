(** Nntp: usenet/srr_usenet.py, the class NNTPFile: a posted file of which segments are grabbed when they are read.
    The servers are a parameter: what decoding an article gives, with all lines of it or with the first lines.  An
    error of it stands for an article that no server has; the choice of the server, printing and init_data are not
    modelled.  Numbers of the yEnc headers are not negative.  The message id is the number of the segment in the NZB. *)
From Verif Require Import Base.
From Verif Require Import Mkv.
Local Open Scope Z_scope.

(** what yenc.decode gives: yenc.py:141-151 *)
Record dpart := mkD { d_file : N; d_number : N; d_size : N; d_data : bytes; d_name : text }.
(** a segment of the NZB; [s_shift]: magic_shift and magic_shift_offset, when there *)
Record segment := mkSeg { s_id : N; s_bytes : N; s_size : N; s_shift : option (Z * Z) }.
Record nfile := mkN {
  n_segs : N -> option segment; n_count : N; n_data : N -> option bytes;
  n_size : Z; n_pos : Z; n_first : Z; n_inactive : bool; n_seek : bool; n_end : bool }.
Definition upd {A} (f : N -> option A) (k : N) (v : A) : N -> option A := fun i => if (i =? k)%N then Some v else f i.

(** ** Code that changes the object, also when it raises *)
Definition M (A : Type) := nfile -> nfile * result A.
Definition ret {A} (a : A) : M A := fun s => (s, Ok a).
Definition raise {A} (e : exn) : M A := fun s => (s, Err e).
Definition mbind {A B} (a : M A) (f : A -> M B) : M B := fun s => match a s with (s, Ok x) => f x s | (s, Err e) => (s, Err e) end.
Notation "'get' x <- a ; b" := (mbind a (fun x => b)) (at level 200, x pattern, a at level 100, right associativity).
Definition state : M nfile := fun s => (s, Ok s).
Definition change (f : nfile -> nfile) : M unit := fun s => (f s, Ok tt).
Definition set_data (s : nfile) (i : N) (d : bytes) : nfile :=
  mkN (n_segs s) (n_count s) (upd (n_data s) i d) (n_size s) (n_pos s) (n_first s) (n_inactive s) (n_seek s) (n_end s).
Definition set_seg (s : nfile) (i : N) (g : segment) : nfile :=
  mkN (upd (n_segs s) i g) (n_count s) (n_data s) (n_size s) (n_pos s) (n_first s) (n_inactive s) (n_seek s) (n_end s).
Definition set_pos (s : nfile) (p : Z) : nfile :=
  mkN (n_segs s) (n_count s) (n_data s) (n_size s) p (n_first s) (n_inactive s) (n_seek s) (n_end s).
Definition set_first (s : nfile) (n : Z) : nfile :=
  mkN (n_segs s) (n_count s) (n_data s) (n_size s) (n_pos s) n (n_inactive s) (n_seek s) (n_end s).
Definition set_active (s : nfile) : nfile :=
  mkN (n_segs s) (n_count s) (n_data s) (n_size s) (n_pos s) (n_first s) false (n_seek s) (n_end s).
Definition set_size (s : nfile) (n : Z) : nfile :=
  mkN (n_segs s) (n_count s) (n_data s) n (n_pos s) (n_first s) false (n_seek s) (n_end s).
Definition set_seek (s : nfile) (b : bool) : nfile :=
  mkN (n_segs s) (n_count s) (n_data s) (n_size s) (n_pos s) (n_first s) (n_inactive s) b (n_end s).
Definition set_end (s : nfile) : nfile :=
  mkN (n_segs s) (n_count s) (n_data s) (n_size s) (n_pos s) (n_first s) (n_inactive s) (n_seek s) true.
(** self.data[i] and self.segments[i] *)
Definition data_at (i : N) : M bytes := get s <- state; match n_data s i with Some d => ret d | None => raise KeyError end.
Definition seg_at (i : N) : M segment := get s <- state; match n_segs s i with Some g => ret g | None => raise KeyError end.

(** srr_usenet.py:306-341 __init__, with the segments of the NZB as (number, bytes) *)
Definition n_new (segs : list (N * N)) : nfile :=
  mkN (fold_left (fun f p => upd f (fst p) (mkSeg (fst p) (snd p) 0 None)) segs (fun _ => None))
    (fold_left (fun m p => if (m <? fst p)%N then fst p else m) segs 0%N) (fun _ => None) 0 0 0 true false false.

Section Server.
(** the name; is_rar(self.name); a connection that init_data has made *)
Variables (name : text) (rar new_server : bool).
(** the article with this id, with all lines or with the first [n] lines when [n] > 1 *)
Variable article : N -> Z -> result dpart.
(** the number of lines in the header of an article, 0 when it does not say *)
Variable head_lines : N -> N.
(** int(n - n * 0.07), with floats *)
Variable less : N -> Z.

Definition DEFAULT_LINES : Z := 4.
(** srr_usenet.py:411-560 grab_segment *)
Definition grab (id : N) (lines : Z) : M unit :=
  match article id lines with
  | Err e => raise e
  | Ok d =>
    get s <- state;
    get _ <- (if n_inactive s then change (fun s => set_size s (Z.of_N (d_file d))) else ret tt);
    get number <- (match n_segs s (d_number d) with
                   | Some _ => ret (d_number d)
                   | None => if teqb (d_name d) name then ret (n_count s) else raise EnvironmentError
                   end);
    get g <- seg_at number;
    get _ <- change (fun s => set_seg s number (mkSeg (s_id g) (s_bytes g) (d_size d) (s_shift g)));
    change (fun s => set_data s number (d_data d))
  end.
(** srr_usenet.py:650-658 _read_first_segment *)
Definition read_first (lines : Z) : M unit :=
  get g <- seg_at 1;
  get _ <- grab (s_id g) lines;
  get g <- seg_at 1;
  get _ <- (if (s_size g =? 0)%N then grab (s_id g) (-1) else ret tt);
  get g <- seg_at 1;
  change (fun s => set_active (set_first s (Z.of_N (s_size g)))).
(** srr_usenet.py:660-663 _first_inactive_grab *)
Definition first_grab : M unit := read_first (if rar then DEFAULT_LINES else -1).
(** srr_usenet.py:578-585 file_size *)
Definition n_file_size : M Z :=
  get s <- state;
  get _ <- (if n_inactive s then read_first 2 else ret tt);
  get s <- state; ret (n_size s).
(** srr_usenet.py:587-623 seek; the origin is one of the three *)
Inductive origin := FromStart | FromHere | FromEnd.
Definition n_seek_to (offset : Z) (o : origin) : M Z :=
  get s <- state;
  if n_inactive s && (offset =? 0) && match o with FromStart => true | FromHere => n_pos s =? 0 | FromEnd => false end then
    get _ <- change (fun s => set_pos s 0); ret 0
  else
    get _ <- (if n_inactive s then first_grab else ret tt);
    get s <- state;
    let destination := match o with FromStart => offset | FromHere => n_pos s + offset | FromEnd => n_size s + offset end in
    if destination <? 0 then raise IndexError
    else if n_size s <? destination then raise IndexError
    else get _ <- change (fun s => set_seek (set_pos s destination) true); ret destination.
(** srr_usenet.py:625-648 _which_segment *)
Definition which_segment (s : nfile) (offset : Z) : result (N * Z) :=
  if offset <? 0 then Err IndexError
  else if n_size s <? offset then Err IndexError
  else if n_first s =? 0 then Err ZeroDivision
  else
    let nb_times := offset / n_first s in
    let fix_ := if (offset mod n_first s =? 0) && negb (nb_times =? 0) then 0 else 1 in
    let part := nb_times + fix_ in
    Ok (Z.to_N part, offset - n_first s * (part - 1)).
Definition from_result {A} (r : result A) : M A := fun s => (s, r).

(** ** MAGIC *)
(** srr_usenet.py:706-723 get_basic_header; the recursion ends when the server gives the segment that is asked *)
Definition basic_header (spart : N) (offset : Z) : M bytes :=
  get d <- data_at spart;
  let shead := slice offset (offset + 7) d in
  if (lenN shead =? 7)%N then ret shead
  else
    get s <- state;
    match n_data s (spart + 1)%N with
    | Some n => ret (shead ++ takeN (7 - lenN shead) n)
    | None =>
      match n_segs s (spart + 1)%N with
      | None => ret shead
      | Some g =>
        get _ <- grab (s_id g) (-1);
        get s <- state;
        match n_data s (spart + 1)%N with
        | Some n => ret (shead ++ takeN (7 - lenN shead) n)
        | None => raise OutOfFuel
        end
      end
    end.
(** srr_usenet.py:724-734 *)
Definition header_type (spart : N) (offset : Z) : M N :=
  get h <- basic_header spart offset;
  ret (match h with [_; _; t; _; _; _; _] => b2n t | _ => 0xFF%N end).
Definition header_flags (spart : N) (offset : Z) : M N :=
  get h <- basic_header spart offset;
  ret (match h with [_; _; _; a; b; _; _] => (b2n a + 256 * b2n b)%N | _ => 0%N end).
(** srr_usenet.py:735-744 is_rar_header *)
Definition rar_header (spart : N) (offset : Z) : M bool :=
  get t <- header_type spart offset; ret ((0x72 <=? t) && (t <=? 0x7B))%N.
(** srr_usenet.py:745-778 do_magic, the loop *)
Fixpoint magic_loop (spart seg_nb : N) (spart_offset : Z) (tests : list Z) : M Z :=
  match tests with
  | [] => ret spart_offset
  | h :: tests =>
    get b <- rar_header spart (spart_offset + h);
    if b then
      if h =? 0 then ret spart_offset
      else
        get g <- seg_at seg_nb;
        let shift := match s_shift g with Some (m, _) => m + h | None => h end in
        get _ <- change (fun s => set_seg s seg_nb (mkSeg (s_id g) (s_bytes g) (s_size g) (Some (shift, spart_offset))));
        ret (spart_offset + h)
    else magic_loop spart seg_nb spart_offset tests
  end.
(** [0] + list(range(-1, -amount, -1)) + list(range(1, amount)) *)
Definition test_range (amount : Z) : list Z :=
  let l := map (fun i => Z.of_nat i) (seq 1 (Z.to_nat (amount - 1))) in 0 :: map Z.opp l ++ l.
Definition do_magic (spart seg_nb : N) (spart_offset amount : Z) : M Z :=
  magic_loop spart seg_nb spart_offset (test_range (if new_server && (amount =? 7) then 19 else amount)).
(** SUPPORTED_FLAG_MASK of the classes in rar.py:1354-1370 *)
Definition flag_mask (t : N) : option N :=
  (if t =? 0x69 then Some 0x1 else if t =? 0x6A then Some 0x8000 else if t =? 0x71 then Some 0x8003 else if t =? 0x6B then Some 0
   else if t =? 0x6C then Some 0xC000 else if t =? 0x73 then Some 0xC3FF else if t =? 0x74 then Some 0xFFFF else if t =? 0x7A then Some 0xFFFF
   else if t =? 0x78 then Some 0xC000 else if t =? 0x7B then Some 0xC00F
   else if (t =? 0x72) || (t =? 0x75) || (t =? 0x76) || (t =? 0x77) || (t =? 0x79) then Some 0xC000 else None)%N.

(** ** read *)
(** srr_usenet.py:787-847 one segment; the result is spart_offset *)
Definition need (spart e : N) (end_offset : Z) (to_end : bool) (spart_offset : Z) (i : N) : M Z :=
  get s <- state;
  get spart_offset <-
    (match n_data s i with
     | Some _ => ret spart_offset
     | None =>
       let amount := if rar && (spart =? 1)%N && negb to_end then DEFAULT_LINES else -1 in
       match n_segs s i with
       | None => raise EnvironmentError
       | Some g =>
         let amount :=
           if (i =? e)%N && negb (spart =? 1)%N && negb (spart =? n_count s)%N then
             let lines := head_lines (s_id g) in
             if (10 <? lines)%N then
               let line_size := (s_bytes g / lines)%N in
               let n := if less line_size <=? 0 then Z.max 1 (Z.of_N line_size) else less line_size in
               Z.max 3 (end_offset / n + 1)
             else amount
           else amount in
         get _ <- grab (s_id g) amount;
         if (i =? spart)%N && rar then do_magic spart i spart_offset 7 else ret spart_offset
       end
     end);
  get d <- data_at i;
  get _ <- (match d with [] => get g <- seg_at i; grab (s_id g) (-1) | _ => ret tt end);
  get d <- data_at i;
  match d with [] => raise AssertionError | _ => ret spart_offset end.
Fixpoint needs (spart e : N) (end_offset : Z) (to_end : bool) (spart_offset : Z) (l : list N) : M Z :=
  match l with
  | [] => ret spart_offset
  | i :: l => get o <- need spart e end_offset to_end spart_offset i; needs spart e end_offset to_end o l
  end.
(** range(spart_nb, end_part + 1) *)
Definition parts (spart e : N) : list N := map (fun i => (spart + N.of_nat i)%N) (seq 0 (N.to_nat (e + 1 - spart))).
(** srr_usenet.py:849-884 the end block *)
Definition end_magic (spart : N) (spart_offset : Z) : M Z :=
  get s <- state;
  let bleft := n_size s - n_pos s in
  if rar && existsb (Z.eqb bleft) [20; 18; 7; 9; 11; 13; 14; 16; 26] && negb (n_end s) then
    get _ <- change set_end;
    get d <- data_at spart;
    get flags <- header_flags spart (Z.of_N (lenN d) - bleft);
    if (N.ldiff flags 0xC00F =? 0)%N then
      let number := 7 + (if N.testbit flags 1 then 4 else 0) + (if N.testbit flags 2 then 7 else 0) + (if N.testbit flags 3 then 2 else 0) in
      get o <- (if number =? bleft then
                  get g <- seg_at spart;
                  get d <- data_at spart;
                  let gap := Z.of_N (s_size g) - Z.of_N (lenN d) in
                  do_magic spart spart spart_offset (if 7 <? gap then gap + 1 else 7)
                else ret spart_offset);
      if (number + 6 =? bleft) && (bleft =? 26) then do_magic spart spart o 7 else ret o
    else ret spart_offset
  else ret spart_offset.
(** srr_usenet.py:886-897 more of the first segment *)
Definition more_first (spart : N) (spart_offset size : Z) : M Z :=
  if (spart =? 1)%N then
    get d <- data_at 1;
    if Z.of_N (lenN d) <? spart_offset + size then
      get g <- seg_at 1;
      get _ <- grab (s_id g) (-1);
      get g <- seg_at 1;
      get d <- data_at 1;
      if rar && negb (s_size g =? lenN d)%N then do_magic spart spart spart_offset 7 else ret spart_offset
    else ret spart_offset
  else ret spart_offset.
(** srr_usenet.py:899-907 more of the last segment *)
Definition more_last (e : N) (odiff end_offset : Z) : M unit :=
  get d <- data_at e;
  if Z.of_N (lenN d) + odiff <? end_offset then get g <- seg_at e; grab (s_id g) (-1) else ret tt.
(** srr_usenet.py:909-926 missing bytes of the marker *)
Definition marker_magic : M unit :=
  get s <- state;
  if rar && (n_pos s =? 0) then
    get d <- data_at 1;
    let marker := bstr "Rar!" ++ [x1a; x07; x00] in
    let lost := filter (fun n => starts_with Byte.eqb (dropN n marker) d) [1; 2; 3; 4]%N in
    match lost with [] => ret tt | n :: _ => change (fun s => set_data s 1 (takeN n marker ++ d)) end
  else ret tt.
(** srr_usenet.py:928-949 a basic header after a seek *)
Definition header_magic (spart : N) (spart_offset size : Z) : M Z :=
  get s <- state;
  if rar && (size =? 7) && n_seek s then
    get after <- do_magic spart spart spart_offset 7;
    get flags <- header_flags spart after;
    get t <- header_type spart after;
    match flag_mask t with
    | Some m => ret (if (N.ldiff flags m =? 0)%N then after else spart_offset)
    | None => ret spart_offset
    end
  else ret spart_offset.
(** srr_usenet.py:965-981 the following segments *)
Fixpoint following (fuel : nat) (next : N) (size : Z) (data : bytes) : M bytes :=
  match fuel with
  | O => raise OutOfFuel
  | S fuel =>
    if size <=? 0 then ret data
    else
      get g <- seg_at next;
      get d <- data_at next;
      if size <? Z.of_N (s_size g) then
        get _ <- change (fun s => set_pos s (n_pos s + size));
        following fuel (next + 1) 0 (data ++ slice 0 size d)
      else
        get _ <- change (fun s => set_pos s (n_pos s + Z.of_N (s_size g)));
        following fuel (next + 1) (size - Z.of_N (s_size g)) (data ++ d)
  end.
(** srr_usenet.py:665-984 read *)
Definition n_read (size : Z) : M bytes :=
  get s <- state;
  get _ <- (if n_inactive s then if size =? -1 then read_first (-1) else first_grab else ret tt);
  get s <- state;
  if n_pos s =? n_size s then ret []
  else if n_size s =? 0 then raise AssertionError
  else if size <? -1 then raise AssertionError
  else if n_size s <? n_pos s then raise AssertionError
  else
    get p <- from_result (which_segment s (n_pos s));
    let '(spart, orig) := p in
    let extra := match n_segs s spart with
                 | Some g => match s_shift g with Some (m, o) => if n_pos s <? o then 0 else m | None => 0 end
                 | None => 0
                 end in
    let to_end := size =? -1 in
    let size := if to_end then n_size s - n_pos s else size in
    get p <- from_result (which_segment s (n_pos s + size));
    let '(e, end_offset) := p in
    get o <- needs spart e end_offset to_end (orig + extra) (parts spart e);
    get o <- end_magic spart o;
    get o <- more_first spart o size;
    get _ <- more_last e (orig - o) end_offset;
    get _ <- marker_magic;
    get o <- header_magic spart o size;
    let odiff := orig - o in
    get _ <- change (fun s => set_seek s false);
    get d <- data_at spart;
    let begin := slice o (Z.of_N (lenN d)) d in
    let dsize := Z.of_N (lenN begin) in
    if size <=? dsize then
      get _ <- change (fun s => set_pos s (n_pos s + size)); ret (slice 0 size begin)
    else
      get _ <- change (fun s => set_pos s (n_pos s + dsize));
      get s <- state;
      get data <- following (S (S (N.to_nat (n_count s)))) (spart + 1) (size - (dsize + odiff)) [];
      get s <- state;
      if n_size s <? n_pos s then raise AssertionError else get _ <- change set_active; ret (begin ++ data).

(** ** A program that uses it *)
Inductive ncall := NSeek (offset : Z) (o : origin) | NTell | NRead (size : Z) | NSize.
Inductive nreply := NPos (n : Z) | NData (d : bytes) | NError (e : exn).
Definition as_reply {A} (f : A -> nreply) (r : nfile * result A) : nfile * nreply :=
  (fst r, match snd r with Ok a => f a | Err e => NError e end).
Definition n_call (s : nfile) (c : ncall) : nfile * nreply :=
  match c with
  | NSeek offset o => as_reply NPos (n_seek_to offset o s)
  | NTell => (s, NPos (n_pos s))
  | NRead size => as_reply NData (n_read size s)
  | NSize => as_reply NPos (n_file_size s)
  end.
Fixpoint n_calls (s : nfile) (cs : list ncall) : list nreply :=
  match cs with [] => [] | c :: cs => let r := n_call s c in snd r :: n_calls (fst r) cs end.
End Server.
