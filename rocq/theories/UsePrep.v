(** UsePrep: choosing the files of an NZB file for an SRR file (usenet/srr_usenet.py create_srr 1117-1253, NNTPFile.__init__,
    __eq__, __lt__; usenet/nzb_utils.py parse_name). *)
From Verif Require Import VolName.
From Verif Require Import Base Sfv.

Definition QUOTE : N := 34.
(** the last of the positions below [n] with [f] *)
Definition last_pos (f : nat -> bool) (n : nat) : option nat := find f (rev (seq 0 n)).
Definition char_at (t : text) (i : nat) : N := nth i t 0.
(** [\d/\(\)] for ASCII *)
Definition count_char (c : N) : bool := (48 <=? c) && (c <=? 57) || (c =? 47) || (c =? 40) || (c =? 41).
(** str.strip of one character *)
Fixpoint lstrip (c : N) (t : text) : text := match t with x :: t' => if x =? c then lstrip c t' else t | [] => [] end.
Definition strip (c : N) (t : text) : text := rev (lstrip c (rev (lstrip c t))).
(** nzb_utils.py:79-87 for a subject of one line.  All that is matched is greedy: the place of the last blank before a
    number is [q], and what is in front of the name is the last blank or "]-" that ends at [q] or before. *)
Definition unquoted_name (subject : text) : text :=
  let n := length subject in
  match last_pos (fun q => (char_at subject q =? 32) && Nat.ltb (S q) n && count_char (char_at subject (S q))) n with
  | None => subject
  | Some q =>
    match last_pos (fun e => (char_at subject (e - 1) =? 32) && Nat.leb 1 e ||
                             (char_at subject (e - 1) =? 45) && (char_at subject (e - 2) =? 93) && Nat.leb 2 e) (S q) with
    | None => subject
    | Some e => firstn (q - e) (skipn e subject)
    end
  end.
(** nzb_utils.py:73-87 parse_name for a subject of one line; the text between the first and the last quote *)
Definition parse_name (subject : text) : text :=
  let quote i := char_at subject i =? QUOTE in
  match find quote (seq 0 (length subject)), last_pos quote (length subject) with
  | Some i, Some j => if Nat.ltb i j then strip QUOTE (firstn (j - S i) (skipn (S i) subject)) else unquoted_name subject
  | _, _ => unquoted_name subject
  end.

(** a segment in an NZB file; nzb_utils.py:140-148 _equality_test *)
Record seg := mkSeg { g_num : N; g_bytes : N; g_id : text }.
Definition seg_eq (a b : seg) : bool := (g_bytes a =? g_bytes b) && (g_num a =? g_num b) && teqb (g_id a) (g_id b).
(** srr_usenet.py:306-326 NNTPFile.__init__: name, segments (a dictionary by number) and nb_segments *)
Record post := mkPost { p_name : text; p_segs : list (N * seg); p_nb : N }.
Fixpoint set_seg (k : N) (s : seg) (d : list (N * seg)) : list (N * seg) :=
  match d with [] => [(k, s)] | (q, t) :: d' => if q =? k then (q, s) :: d' else (q, t) :: set_seg k s d' end.
Fixpoint get_seg (k : N) (d : list (N * seg)) : option seg :=
  match d with [] => None | (q, t) :: d' => if q =? k then Some t else get_seg k d' end.
Definition make_post (subject : text) (segments : list seg) : post :=
  mkPost (parse_name subject) (fold_left (fun d s => set_seg (g_num s) s d) segments [])
    (fold_left (fun n s => if n <? g_num s then g_num s else n) segments 0).
(** srr_usenet.py:986-1003 __eq__ of two NNTPFile objects *)
Definition post_eq (a b : post) : bool :=
  (p_nb a =? p_nb b) && (lenN (p_segs a) =? lenN (p_segs b)) &&
  forallb (fun ks => match get_seg (fst ks) (p_segs b) with Some t => seg_eq (snd ks) t | None => false end) (p_segs a).
(** sum(f.bytes for f in segments.values()) *)
Definition post_bytes (p : post) : N := fold_right N.add 0 (map (fun ks => g_bytes (snd ks)) (p_segs p)).
(** srr_usenet.py:1014-1016 *)
Definition has_first_segment (p : post) : bool := match get_seg 1 (p_segs p) with Some _ => true | None => false end.

Definition posts := list (text * post).
Fixpoint set_post (k : text) (p : post) (d : posts) : posts :=
  match d with [] => [(k, p)] | (q, r) :: d' => if teqb q k then (q, p) :: d' else (q, r) :: set_post k p d' end.
Fixpoint get_post (k : text) (d : posts) : option post :=
  match d with [] => None | (q, r) :: d' => if teqb q k then Some r else get_post k d' end.
Definition contains (a b : text) : bool := match find_sub N.eqb a b with Some _ => true | None => false end.
Definition ends (e : string) (t : text) : bool := ends_with (str e) t.
Definition extension (n : text) : text := lower (skipn (length n - 4) n).

(** srr_usenet.py:1120-1149 *)
Record prep := mkPrep { r_files : posts; r_store : list post; r_sfvs : list post }.
Definition prep_step (s : prep) (nfile : post) : prep :=
  let old := match get_post (p_name nfile) (r_files s) with Some o => o | None => nfile end in
  let old := if negb (post_eq old nfile) then if post_bytes old <? post_bytes nfile then nfile else old else old in
  let ext := extension (p_name nfile) in
  let sfv := teqb ext (str ".sfv") in
  let subs := contains (str "subs") (p_name nfile) in
  mkPrep (set_post (p_name nfile) old (r_files s))
    (r_store s ++ (if mem_text ext [str ".nfo"; str ".jpg"; str ".png"; str ".bmp"; str ".srs"] || sfv && subs then [nfile] else []))
    (r_sfvs s ++ (if sfv && negb subs then [nfile] else [])).
Definition prep_all (l : list post) : prep := fold_left prep_step l (mkPrep [] [] []).

Section Os.
(** the names of repacks that begin with ich or zed (1158-1159); parse_sfv_file of a posted file: the number of entries and
    of comments, or an error; file_size of a posted file; the downloads of these do not change what they give *)
Variables (known_repack : text -> bool) (sfv_counts : post -> result (N * N)) (file_size : post -> N).
(** srr_usenet.py:1151-1168: exceptions for files that are not wanted *)
Inductive refusal := IncompleteNzb (name : text) | Repack (name : text).
Definition alnum (c : N) : bool := (48 <=? c) && (c <=? 57) || (65 <=? c) && (c <=? 90) || (97 <=? c) && (c <=? 122).
Definition kere_name (n : text) : bool :=
  teqb (extension n) (str ".rar") && (lenN n =? 24) && forallb alnum (firstn 20 n).
Definition refuse1 (p : post) : option refusal :=
  if is_rar (p_name p) && negb (has_first_segment p) then Some (IncompleteNzb (p_name p))
  else if known_repack (p_name p) || contains (str "kere.ws") (p_name p) then Some (Repack (p_name p))
  else if kere_name (p_name p) then Some (Repack (p_name p))
  else None.
Fixpoint refuse (d : posts) : option refusal :=
  match d with [] => None | (_, p) :: d' => match refuse1 p with Some r => Some r | None => refuse d' end end.

(** srr_usenet.py:1170-1193: one SFV file of each name; [unique] is the names of [uniqfile] *)
Definition better_sfv (new old : post) : bool :=
  match sfv_counts new, sfv_counts old with
  | Ok (newe, newc), Ok (olde, oldc) => (olde <? newe) || (newe =? olde) && (oldc <? newc)
  | _, _ => false
  end.
Fixpoint uniq_step (sfile : post) (uniqfile : list post) : list post :=
  match uniqfile with
  | [] => [sfile]
  | q :: l => if teqb (p_name q) (p_name sfile) then (if better_sfv sfile q then sfile else q) :: l else q :: uniq_step sfile l
  end.
Definition uniq (sfvs : list post) : list post := fold_left (fun l s => uniq_step s l) sfvs [].
(** 1197 sfvs.sort() of different names *)
Fixpoint insert_post (p : post) (l : list post) : list post :=
  match l with [] => [p] | q :: l' => if text_lt (p_name p) (p_name q) then p :: l else q :: insert_post p l' end.
Definition sort_posts (l : list post) : list post := fold_right insert_post [] l.
(** 1199-1203: the loop goes by position in the list that it changes; list.remove takes the first that is equal *)
Definition special (n : text) : bool :=
  existsb (fun w => contains w (lower n)) [str "extras"; str "proof"; str "sample"; str "subpack"].
Fixpoint remove_post (p : post) (l : list post) : list post :=
  match l with [] => [] | q :: l' => if post_eq q p then l' else q :: remove_post p l' end.
Fixpoint to_end (n : nat) (i : nat) (l : list post) : list post :=
  match n with
  | O => l
  | S n =>
    match nth_error l i with
    | None => l
    | Some p => to_end n (S i) (if special (p_name p) then remove_post p l ++ [p] else l)
    end
  end.
Definition order_sfvs (l : list post) : list post := to_end (S (length l)) 0 l.

(** 1210-1248: files to store that are dropped *)
Definition dropped (p : post) : bool :=
  let n := p_name p in
  ends "_s.jpg" n || teqb n (str "UsenetSpaceCowboys.nfo") || teqb n (str "_newzNZB.nfo") ||
  ends ".jpg" n && negb (contains (str "proof") (lower n)) &&
    ((post_bytes p <? 9000) || contains (str "-thumb.jpg") n || contains (str "_poster.jpg") n || contains (str "_s.jpg") n) ||
  ends ".png" n && (file_size p =? 592451).
(** 1206-1253 *)
Definition order_store (l : list post) : list post :=
  let kept := filter (fun p => negb (dropped p)) l in
  filter (fun p => ends ".nfo" (p_name p)) kept ++ filter (fun p => negb (ends ".nfo" (p_name p))) kept.
(** 1117-1253: all files by name, the files to store, the SFV files *)
Definition prepare (l : list post) : refusal + (posts * list post * list post) :=
  let s := prep_all l in
  match refuse (r_files s) with
  | Some r => inl r
  | None => inr (r_files s, order_store (r_store s), order_sfvs (sort_posts (uniq (r_sfvs s))))
  end.
End Os.
