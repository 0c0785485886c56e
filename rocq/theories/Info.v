(** Info: what an SRR file says about its volumes (rescene/main.py info, content_hash). *)
From Verif Require Import Base Path VolName Rar Srr Sfv.

(** dict with the order of insertion: a key keeps its place when it is set again *)
Fixpoint dict_set {A} (k : text) (v : A) (d : list (text * A)) : list (text * A) :=
  match d with
  | [] => [(k, v)]
  | (q, w) :: d' => if teqb q k then (q, v) :: d' else (q, w) :: dict_set k v d'
  end.
Fixpoint dict_get {A} (k : text) (d : list (text * A)) : option A :=
  match d with
  | [] => None
  | (q, w) :: d' => if teqb q k then Some w else dict_get k d'
  end.

(** main.py:1663-1680 FileInfo, the attributes set for a volume and for an archived file *)
Record rar_info := mkRar {
  ri_name : text; ri_size : N; ri_start : N; ri_end : N; ri_crc : option text }.
Record arch_info := mkArch { ai_name : text; ai_size : N; ai_compressed : bool; ai_crc : N }.
Record info_t := mkInfo {
  i_app : text;
  i_stored : list (text * N);
  i_rars : list (text * rar_info);
  i_files : list (text * arch_info);
  i_recovery : option (text * N);
  i_sfv : list sfv;
  i_comments : list text;
  i_compression : bool;
  i_oso : list (text * N * N);
  i_current : option text }.       (* the key of current_rar *)
Definition info0 : info_t := mkInfo [] [] [] [] None [] [] false [] None.

Section Info.
(** str.lower and str.upper *)
Variables (lowf upf : text -> text).

Definition info_app s app := mkInfo app (i_stored s) (i_rars s) (i_files s) (i_recovery s) (i_sfv s) (i_comments s)
  (i_compression s) (i_oso s) None.
Definition info_stored s name size es cs := mkInfo (i_app s) (dict_set name size (i_stored s)) (i_rars s) (i_files s)
  (i_recovery s) (i_sfv s ++ es) (i_comments s ++ cs) (i_compression s) (i_oso s) None.
Definition info_rars s rars cur := mkInfo (i_app s) (i_stored s) rars (i_files s) (i_recovery s) (i_sfv s) (i_comments s)
  (i_compression s) (i_oso s) cur.
Definition info_files s files c := mkInfo (i_app s) (i_stored s) (i_rars s) files (i_recovery s) (i_sfv s) (i_comments s)
  c (i_oso s) (i_current s).
Definition info_recovery s r := mkInfo (i_app s) (i_stored s) (i_rars s) (i_files s) (Some r) (i_sfv s) (i_comments s)
  (i_compression s) (i_oso s) (i_current s).
Definition info_oso s o := mkInfo (i_app s) (i_stored s) (i_rars s) (i_files s) (i_recovery s) (i_sfv s) (i_comments s)
  (i_compression s) (i_oso s ++ [o]) None.

(** os.path.basename(file_name.lower()) *)
Definition rar_key (name : text) : text := basename (lowf name).

(** main.py:1020-1049 an archived file *)
Definition arch_step (s : info_t) (f : file_info) : info_t :=
  let f0 := match dict_get (f_name f) (i_files s) with
            | Some a => a
            | None =>
              mkArch (f_name f)
                (if negb (f_unpacked f =? 0xffffffffffffffff) && negb (f_unpacked f =? 0xffffffff) then f_unpacked f else 0)
                (negb (f_method f =? COMPR_STORING)) 0
            end in
  let c := match dict_get (f_name f) (i_files s) with
           | Some _ => i_compression s
           | None => i_compression s || ai_compressed f0
           end in
  let size := if (f_unpacked f =? 0xffffffff) && negb (ai_compressed f0) then ai_size f0 + f_packed f else ai_size f0 in
  let size := if negb (f_unpacked f =? 0xffffffffffffffff) && (size =? 0) then f_unpacked f else size in
  info_files s (dict_set (f_name f) (mkArch (ai_name f0) size (ai_compressed f0) (f_crc f)) (i_files s)) c.

(** main.py:1082-1088 an old recovery record; 1052-1061 a new one *)
Definition add_recovery (s : info_t) (name : text) (size : N) : info_t :=
  match i_recovery s with
  | None => info_recovery s (name, size)
  | Some (n, k) => info_recovery s (n, k + size)
  end.

(** main.py:983-1103 the branches of the loop, up to the size of the volume *)
Definition info_kind (srr : bytes) (s : info_t) (b : block) : result info_t :=
  let ty := b_type b in
  if ty =? T_SrrHeader then
    match b_kind b with KSrrHeader app => Ok (info_app s app) | _ => Err AttributeError end
  else if ty =? T_SrrStored then
    match b_kind b with
    | KStored size name =>
      if teqb (lowf (last_part 4 name)) (str ".sfv") then
        do r <- parse_sfv_data (srr_data srr b);
        let '(es, cs, errs) := r in Ok (info_stored s name size es (cs ++ errs))
      else Ok (info_stored s name size [] [])
    | _ => Err AttributeError
    end
  else if ty =? T_SrrRarFile then
    match b_kind b with
    | KRarFile name =>
      let start := b_pos b + b_hsize b in
      Ok (info_rars s (dict_set (rar_key name) (mkRar name 0 start start None) (i_rars s)) (Some (rar_key name)))
    | _ => Err AttributeError
    end
  else if ty =? T_RarFile then
    match b_kind b with KFile f => Ok (arch_step s f) | _ => Err AttributeError end
  else if ty =? T_RarNewSub then
    match b_kind b with
    | KNewSub f rec =>
      if teqb (f_name f) (str "RR") then
        match rec with
        | Some (rs, ds) =>
          if b_add b =? 512 * rs + 2 * ds then Ok (add_recovery s (str "Protect+") (512 * rs + 2 * ds))
          else Err AssertionError
        | None => Err AttributeError
        end
      else Ok s
    | _ => Err AttributeError
    end
  else if ty =? T_RarOldRec then Ok (add_recovery s (str "Protect!") (b_add b))
  else if ty =? T_SrrOso then
    match b_kind b with KOso size hash name => Ok (info_oso s (name, hash, size)) | _ => Err AttributeError end
  else Ok s.
(** main.py:1105-1115 the size of the volume *)
Definition info_count (s : info_t) (b : block) : info_t :=
  match i_current s with
  | None => s
  | Some key =>
    match dict_get key (i_rars s) with
    | None => s
    | Some r =>
      let size := if b_type b =? T_SrrRarFile then ri_size r
                  else (if b_type b =? T_SrrPadding then ri_size r else ri_size r + b_hsize b) + b_add b in
      info_rars s (dict_set key (mkRar (ri_name r) size (ri_start r) (b_pos b + b_hsize b) (ri_crc r)) (i_rars s)) (Some key)
    end
  end.
Definition info_step (srr : bytes) (s : info_t) (b : block) : result info_t :=
  do s <- info_kind srr s b; Ok (info_count s b).

(** main.py:1117-1125 add_info_to_rar for all entries: the sums of the volumes, and the other entries *)
Fixpoint add_sums (es : list sfv) (rars : list (text * rar_info)) : list (text * rar_info) * list sfv :=
  match es with
  | [] => (rars, [])
  | e :: es =>
    let key := lowf (basename (e_name e)) in
    match dict_get key rars with
    | Some r => add_sums es (dict_set key (mkRar (ri_name r) (ri_size r) (ri_start r) (ri_end r) (Some (upf (e_crc e)))) rars)
    | None => let '(rars, rest) := add_sums es rars in (rars, e :: rest)
    end
  end.
(** main.py:961-1135 info *)
Definition info (srr : bytes) : result info_t :=
  do bs <- read_all srr;
  do s <- foldR (info_step srr) bs info0;
  let '(rars, rest) := add_sums (i_sfv s) (i_rars s) in
  Ok (mkInfo (i_app s) (i_stored s) rars (i_files s) (i_recovery s) rest (i_comments s) (i_compression s) (i_oso s) None).

(** sorted() of different strings *)
Fixpoint insert_text (t : text) (l : list text) : list text :=
  match l with
  | [] => [t]
  | q :: l' => if text_lt t q then t :: l else q :: insert_text t l'
  end.
Definition sort_text (l : list text) : list text := fold_right insert_text [] l.

(** main.py:1137-1160 content_hash: the bytes that are hashed.  The end of a volume is always set. *)
Definition content_bytes (srr : bytes) : result bytes :=
  do i <- info srr;
  Ok (concat (map (fun key =>
        match dict_get key (i_rars i) with
        | Some r => sub (ri_start r) (ri_end r - ri_start r) srr
        | None => []
        end) (sort_text (map fst (i_rars i))))).
(** hashlib: one function of all the bytes given to update *)
Definition content_hash (digest : bytes -> text) (srr : bytes) : result text :=
  do b <- content_bytes srr; Ok (digest b).
End Info.
