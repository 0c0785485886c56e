(** C87: the blocks from which compressed archives are made again. *)
From Verif Require Import VolName.
From Verif Require Import Base Compr ComprSpec ComprFacts ComprEx.

(** the file blocks that are taken are those of the archive of the block, of all its volumes, in order *)
Theorem C87_blocks : forall s a r c cur, archive_of s a r c -> In cur r -> ~ header cur -> NoDup (map k_id (a ++ r ++ c)) ->
  archived_blocks (a ++ r ++ c) cur = filter file_block r.
Proof. exact blocks_thm. Qed.
Print Assumptions C87_blocks.
Example C87_blocks_ex : archive_of (str "cd2/b") (v1 ++ v2) v3 [] /\ NoDup (map k_id ((v1 ++ v2) ++ v3 ++ [])).
Proof. exact (conj ex_archive2 ex_nodup). Qed.

(** the names of the volumes of an archive *)
Theorem C87_set : forall f s, set_is f s <-> get_set f = s.
Proof. exact set_spec. Qed.
Print Assumptions C87_set.
Example C87_set_ex : set_is (str "cd1/a.rar") (str "cd1/a").
Proof. exact set_1. Qed.

(** the neighbours of a block *)
Theorem C87_neighbours : forall b a c, NoDup (map k_id (a ++ b :: c)) ->
  next_block b (a ++ b :: c) = hd_error c /\ previous_block b (a ++ b :: c) = last a b.
Proof. exact (fun b a c H => conj (next_at a b c H) (prev_at a b c H)). Qed.
Print Assumptions C87_neighbours.
Example C87_neighbours_ex : NoDup (map k_id ((v1 ++ v2) ++ v3 ++ [])).
Proof. exact ex_nodup. Qed.

(** the packed size of a file is that of all its parts *)
Theorem C87_packed : forall a f c b, Forall (fun x => k_name x <> k_name b) a -> Forall (fun x => k_name x = k_name b) f ->
  Forall (fun x => k_name x <> k_name b) c -> full_packed_size b (a ++ f ++ c) = sum (map k_packed f).
Proof. exact packed_thm. Qed.
Print Assumptions C87_packed.
Example C87_packed_ex : full_packed_size (fb 7 (str "x") 0 50 []) (filter file_block (v1 ++ v2)) = 150.
Proof. exact (proj1 ex_size). Qed.

(** the size of the first volume of the SRR file.  Missing: volumes of other archives, and what is behind the end block (see below). *)
Theorem C87_volume_partial : forall p m body e rest, Forall srr_block p -> k_raw m = 0x72 -> Forall plain body ->
  (exists x, e = [x] /\ k_raw x = 0x7B /\ k_add x = 0) \/ (e = [] /\ 0 < k_head m /\ exists q, Forall srr_block q /\ (rest = q \/ exists m' rest', rest = q ++ m' :: rest' /\ k_raw m' = 0x72)) ->
  volume_size (p ++ (m :: body ++ e) ++ rest) = sum (map block_size (m :: body ++ e)).
Proof. exact volume_thm. Qed.
Print Assumptions C87_volume_partial.
Example C87_volume_partial_ex : volume_size (v1 ++ v2 ++ v3) = 154.
Proof. exact (proj1 (proj2 ex_size)). Qed.

(** the most recent day of the files, by which the versions of RAR are chosen *)
Theorem C87_date : forall l, (forall d, times l d -> day_ok d) ->
  exists r, recent_date l = date_text r /\ (r = (1970, 1, 1) \/ times l r) /\ day_le (1970, 1, 1) r /\ forall d, times l d -> day_le d r.
Proof. exact date_thm. Qed.
Print Assumptions C87_date.
Example C87_date_ex : recent_date (v1 ++ v2 ++ v3) = str "2004-11-01".
Proof. exact (proj2 (proj2 ex_size)). Qed.

(** the first file of a solid archive starts a solid archive.  Missing: a first file in several parts (see below). *)
Theorem C87_first_partial : forall archived s a r c b n y, archive_of s a r c -> NoDup (map k_id (a ++ r ++ c)) ->
  filter file_block r = b :: n :: y -> solid b = false -> solid n = true -> factory archived b (a ++ r ++ c) = Ok (PSolid n).
Proof. exact first_thm. Qed.
Print Assumptions C87_first_partial.
Example C87_first_partial_ex : factory [] (fb 12 (str "z") 0 60 [Some (2004, 11, 1)]) ((v1 ++ v2) ++ v3 ++ []) = Ok (PSolid (fb 13 (str "w") 0x10 5 [])).
Proof. exact ex_plan. Qed.

(** the later files use what was done for the first one.  Missing: a first file that was not compressed (see below). *)
Theorem C87_later_partial : forall archived s a r c b0 x b y, archive_of s a r c -> NoDup (map k_id (a ++ r ++ c)) ->
  filter file_block r = b0 :: x ++ b :: y -> solid b = true -> In (k_name b0) archived ->
  exists f, factory archived b (a ++ r ++ c) = Ok (PReuse (k_name b0) f) /\ forall n, f = Some n <-> hd_error y = Some n /\ solid n = true.
Proof. exact later_thm. Qed.
Print Assumptions C87_later_partial.
Example C87_later_partial_ex : factory [str "z"] (fb 13 (str "w") 0x10 5 []) ((v1 ++ v2) ++ v3 ++ []) = Ok (PReuse (str "z") None).
Proof. exact ex_reuse. Qed.

(** files of other archives are compressed alone, with the block behind them *)
Theorem C87_alone : forall archived s a r c x b y, archive_of s a r c -> NoDup (map k_id (a ++ r ++ c)) ->
  filter file_block r = x ++ b :: y -> solid b = false -> match y with [] => True | n :: _ => solid n = false end ->
  factory archived b (a ++ r ++ c) = Ok (PAlone (hd_error y)).
Proof. exact alone_thm. Qed.
Print Assumptions C87_alone.
Example C87_alone_ex : archive_of (str "cd1/a") [mkBlk 0 0x69 [] 0 0 7 0 []] (v1 ++ v2) v3.
Proof. exact ex_archive. Qed.

(** the first file of a solid archive that goes on in the next volume is compressed alone, and followed by itself *)
Theorem C87_split_refuted : exists b n l, solid b = false /\ In n l /\ k_raw n = 0x74 /\ solid n = true /\
  exists b2, factory [] b l = Ok (PAlone (Some b2)) /\ k_name b2 = k_name b.
Proof.
  exact (ex_intro _ (fb 3 (str "x") 0 100 [Some (2004, 5, 6); None]) (ex_intro _ (fb 8 (str "y") 0x10 30 [Some (2003, 11, 20)]) (ex_intro _ (v1 ++ v2)
    (conj eq_refl (conj (or_intror (or_intror (or_intror (or_intror (or_intror (or_intror (or_intror (or_introl eq_refl))))))))
      (conj eq_refl (conj eq_refl (ex_intro _ (fb 7 (str "x") 0 50 []) (conj ex_split eq_refl))))))))).
Qed.
Print Assumptions C87_split_refuted.

(** a solid archive of which the first file was not compressed *)
Theorem C87_stored_refuted : exists b l, In b l /\ solid b = true /\ factory [] b l = Err KeyError.
Proof.
  exact (ex_intro _ (fb 13 (str "w") 0x10 5 []) (ex_intro _ (v1 ++ v2 ++ v3) (conj (in_or_app v1 (v2 ++ v3) _ (or_intror (in_or_app v2 v3 _ (or_intror
    (or_intror (or_intror (or_intror (or_introl eq_refl)))))))) (conj eq_refl ex_key)))).
Qed.
Print Assumptions C87_stored_refuted.

(** the archives a.rar and a.part1.rar are taken for one *)
Theorem C87_mixed_refuted : exists h h' f l l', header h /\ header h' /\ k_name h = str "cd1/a.rar" /\ k_name h' = str "cd1/a.part1.rar" /\
  archived_blocks ((h :: l) ++ h' :: l') f <> filter file_block l'.
Proof.
  exact (ex_intro _ (hb 1 (str "cd1/a.rar")) (ex_intro _ (hb 20 (str "cd1/a.part1.rar")) (ex_intro _ (fb 22 (str "q") 0 9 []) (ex_intro _ (tl v1) (ex_intro _ (tl v4)
    (conj eq_refl (conj eq_refl (conj eq_refl (conj eq_refl ex_mixed_ne))))))))).
Qed.
Print Assumptions C87_mixed_refuted.

(** what is behind the end block of a volume is not counted *)
Theorem C87_padding_refuted : exists h l p, header h /\ k_raw p = 0x6C /\ volume_size ((h :: l) ++ [p]) <> sum (map block_size (l ++ [p])).
Proof.
  exact (ex_intro _ (hb 1 (str "cd1/a.rar")) (ex_intro _ (tl v1) (ex_intro _ (mkBlk 30 0x6C [] 0 0 7 1000 []) (conj eq_refl (conj eq_refl ex_pad_ne))))).
Qed.
Print Assumptions C87_padding_refuted.
(** A block is solid just if bit 4 of its flags is set. *)
Theorem C87_solid : forall b, solid b = true <-> N.testbit (k_flags b) 4 = true.
Proof. exact solid_thm. Qed.
Print Assumptions C87_solid.
Example C87_solid_example : solid (mkBlk 1 0x74 (str "a") 0x8010 0 0 0 []) = true /\ solid (mkBlk 1 0x74 (str "a") 0x8020 0 0 0 []) = false.
Proof. exact ex_solid. Qed.
