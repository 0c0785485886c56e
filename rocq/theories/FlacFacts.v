(** FlacFacts: proofs about FLAC files. *)
From Verif Require Import Base BaseFacts Crc CrcFacts RecovFacts MatchFacts SrrFacts SrsRec SrsRecSpec SrsRecFacts EbmlFacts Srs StrmSpec StrmFacts Mp3Spec Mp3 Mp3Facts Flac FlacSpec.

(** ** Files made of parts *)
Definition fpart : Type := (ftype * bytes * bytes)%type.
Definition p_ty (p : fpart) : ftype := fst (fst p).
Definition p_hd (p : fpart) : bytes := snd (fst p).
Definition p_dt (p : fpart) : bytes := snd p.
Definition p_all (p : fpart) : bytes := p_hd p ++ p_dt p.
Definition blk (pos : N) (p : fpart) : fblock := mkF (p_ty p) (Z.of_N (lenN (p_dt p))) (p_hd p) pos.
Definition pflat (ps : list fpart) : bytes := concat (map p_all ps).
Lemma pflat_app a b : pflat (a ++ b) = pflat a ++ pflat b. Proof. unfold pflat. now rewrite map_app, concat_app. Qed.
Lemma pflat_cons p b : pflat (p :: b) = p_all p ++ pflat b. Proof. reflexivity. Qed.
Definition reads (f : bytes) (ps : list fpart) : Prop :=
  f = pflat ps /\ Forall (fun p => p_all p <> []) ps /\
  forall a p b, ps = a ++ p :: b -> flac_next f (lenN (pflat a)) = Ok (Some (blk (lenN (pflat a)) p)).
Lemma pflat_length ps : Forall (fun p => p_all p <> []) ps -> (length ps <= length (pflat ps))%nat.
Proof.
  induction 1 as [|p ps Hp _ IH]; [apply le_n|]. rewrite pflat_cons, app_length. cbn [length]. destruct (p_all p) eqn:E; [now destruct Hp|cbn [length]; lia].
Qed.
Lemma contents_blk (pre : bytes) (p : fpart) (post : bytes) : f_contents (pre ++ p_all p ++ post) (blk (lenN pre) p) = p_dt p.
Proof.
  unfold f_contents, f_data, blk, read_at, p_all. cbn [f_start f_header f_size]. replace (Z.of_N (lenN (p_dt p)) <? 0)%Z with false by lia. rewrite N2Z.id, <- app_assoc, app_assoc.
  apply sub_app_exact; [now rewrite lenN_app|reflexivity].
Qed.

Section Run.
Context {S : Type}.
Fixpoint run (act : S -> fpart -> result (S * move)) (ps : list fpart) (s : S) : result S :=
  match ps with
  | [] => Ok s
  | p :: ps => do r <- act s p; match snd r with Stop => Ok (fst r) | _ => run act ps (fst r) end
  end.
Lemma loop_run (Inv : S -> Prop) (act : S -> fblock -> result (S * move)) act' f ps :
  reads f ps -> (forall a p b s, Inv s -> ps = a ++ p :: b -> f = pflat a ++ p_all p ++ pflat b -> act s (blk (lenN (pflat a)) p) = act' s p) ->
  (forall s p s' m, Inv s -> act' s p = Ok (s', m) -> Inv s') ->
  forall b a fuel s, Inv s -> ps = a ++ b -> (length b < fuel)%nat -> flac_loop fuel act f (lenN (pflat a)) s = run act' b s.
Proof.
  intros (Ef & Hne & Hn) Ha Hi. induction b as [|p b IH]; intros a fuel s I E L; (destruct fuel as [|fuel]; [inversion L|]); cbn [flac_loop run].
  - rewrite app_nil_r in E. subst a. unfold flac_next. rewrite Ef, N.eqb_refl. reflexivity.
  - rewrite (Hn a p b E). cbn [bind].
    assert (Es : f = pflat a ++ p_all p ++ pflat b) by (rewrite Ef, E, pflat_app; reflexivity).
    rewrite (Ha _ _ _ s I E Es). destruct (act' s p) as [[s' m]|e] eqn:Ea; cbn [bind]; [|reflexivity]. cbn [fst snd]. apply (Hi _ _ _ _ I) in Ea.
    assert (El : lenN (pflat (a ++ [p])) = lenN (pflat a) + lenN (p_hd p) + lenN (p_dt p)).
    { rewrite pflat_app, lenN_app. unfold pflat at 2. cbn [map concat]. rewrite app_nil_r. unfold p_all. rewrite lenN_app. lia. }
    cbn [length] in L. specialize (IH (a ++ [p]) fuel s'). rewrite El in IH. rewrite <- app_assoc in IH. specialize (IH Ea E ltac:(lia)). destruct m; [| |reflexivity].
    + unfold f_data, blk. cbn [f_start f_header f_size]. replace (Z.to_N (Z.of_N (lenN (pflat a) + lenN (p_hd p)) + Z.of_N (lenN (p_dt p)))) with (lenN (pflat a) + lenN (p_hd p) + lenN (p_dt p)) by lia. exact IH.
    + rewrite Es at 2. rewrite contents_blk. unfold f_data, blk. cbn [f_start f_header]. exact IH.
Qed.
Lemma read_run (act : S -> fblock -> result (S * move)) act' f ps s :
  reads f ps -> (forall pre p post s, f = pre ++ p_all p ++ post -> act s (blk (lenN pre) p) = act' s p) ->
  flac_read act f s = run act' ps s.
Proof.
  intros R Ha. unfold flac_read. apply (loop_run (fun _ => True) act act' f ps R (fun a p b s _ _ => Ha (pflat a) p (pflat b) s) (fun _ _ _ _ _ _ => I) ps []); [exact I|reflexivity|]. destruct R as (-> & H & _). apply pflat_length in H. lia.
Qed.
Lemma read_run_at (act : S -> fblock -> result (S * move)) act' f ps s :
  reads f ps -> (forall a p b s, ps = a ++ p :: b -> f = pflat a ++ p_all p ++ pflat b -> act s (blk (lenN (pflat a)) p) = act' s p) ->
  flac_read act f s = run act' ps s.
Proof.
  intros R Ha. unfold flac_read. apply (loop_run (fun _ => True) act act' f ps R (fun a p b s _ => Ha a p b s) (fun _ _ _ _ _ _ => I) ps []); [exact I|reflexivity|].
  destruct R as (-> & H & _). apply pflat_length in H. lia.
Qed.
Lemma read_run_inv (Inv : S -> Prop) (act : S -> fblock -> result (S * move)) act' f ps s :
  reads f ps -> (forall pre p post s, Inv s -> f = pre ++ p_all p ++ post -> act s (blk (lenN pre) p) = act' s p) ->
  (forall s p s' m, Inv s -> act' s p = Ok (s', m) -> Inv s') -> Inv s ->
  flac_read act f s = run act' ps s.
Proof.
  intros R Ha Hi I. unfold flac_read. apply (loop_run Inv act act' f ps R (fun a p b s I _ => Ha (pflat a) p (pflat b) s I) Hi ps []); [exact I|reflexivity|]. destruct R as (-> & H & _). apply pflat_length in H. lia.
Qed.
End Run.

(** ** Reading the parts *)
Definition MARK : fpart := (Named (str "fLaC"), bstr "fLaC", []).
Definition mpart (ty : N) (d : bytes) : fpart := (Num ty, n2b ty :: be 3 (lenN d), d).
Inductive ppart : fpart -> Prop :=
| pp_mark : ppart MARK
| pp_id3 v sz d : lenN v = 3 -> base128 sz (lenN d) -> ppart (Named (str "ID3"), bstr "ID3" ++ v ++ sz, d)
| pp_tag t : id3v1 t -> ppart (Named (str "TAG"), [], t)
| pp_meta ty d : ty < 255 -> ~ In ty [73; 84; 102] -> lenN d < 2 ^ 24 -> ppart (mpart ty d).
Lemma sub_here {A} (pre l post : list A) n : n <= lenN l -> sub (lenN pre) n (pre ++ l ++ post) = takeN n l.
Proof. intros H. unfold sub. rewrite dropN_app_exact by reflexivity. now rewrite takeN_app_le by exact H. Qed.
Lemma here_end {A} (pre l post : list A) : l <> [] -> (lenN pre =? lenN (pre ++ l ++ post)) = false.
Proof. intros H. rewrite !lenN_app. destruct l; [now destruct H|]. rewrite lenN_cons. lia. Qed.
Lemma base128_len sz n : base128 sz n -> lenN sz = 4.
Proof. intros (a & b & c & d & M & _). apply (f_equal lenN) in M. rewrite lenN_map in M. exact M. Qed.
Lemma n2b_eq x c : x < 256 -> n2b x = c -> x = b2n c. Proof. intros H <-. now rewrite b2n_n2b_small. Qed.
Lemma next_part p (pre post : bytes) : ppart p -> flac_next (pre ++ p_all p ++ post) (lenN pre) = Ok (Some (blk (lenN pre) p)).
Proof.
  intros H. destruct H as [|v sz d Lv Hb|t (r & -> & Lr)|ty d Ht Hi Ld]; unfold flac_next.
  - rewrite here_end by discriminate. change (p_all MARK) with (bstr "fLaC"). rewrite (sub_here pre (bstr "fLaC") post 4) by reflexivity. reflexivity.
  - pose proof (base128_len _ _ Hb) as Ls. unfold p_all, p_hd, p_dt. cbn [fst snd]. rewrite here_end by (rewrite <- !app_assoc; discriminate).
    assert (L : lenN ((bstr "ID3" ++ v ++ sz) ++ d) = 10 + lenN d) by (rewrite !lenN_app, Lv, Ls; change (lenN (bstr "ID3")) with 3; lia).
    rewrite !sub_here by lia. set (t := (bstr "ID3" ++ v ++ sz) ++ d).
    assert (E3 : takeN 3 (takeN 4 t) = bstr "ID3") by (rewrite takeN_takeN; unfold t; change (N.min 3 4) with 3; rewrite <- !app_assoc; now apply takeN_app_exact).
    destruct (beqb (takeN 4 t) (bstr "fLaC")) eqn:E; [apply beqb_eq in E; rewrite E in E3; discriminate|]. rewrite E3, beqb_refl.
    assert (E10 : takeN 10 t = bstr "ID3" ++ v ++ sz) by (unfold t; apply takeN_app_exact; rewrite !lenN_app, Lv, Ls; reflexivity). rewrite E10.
    replace (sub 6 4 (bstr "ID3" ++ v ++ sz)) with sz.
    2:{ symmetry. rewrite app_assoc. rewrite <- (app_nil_r sz) at 1. apply sub_app_exact; [rewrite lenN_app, Lv; reflexivity|exact (eq_sym Ls)]. }
    pose proof (id3_decode sz (lenN d) [] Hb) as D. rewrite app_nil_r in D. rewrite D. reflexivity.
  - unfold p_all, p_hd, p_dt. cbn [fst snd app]. rewrite here_end by discriminate. rewrite sub_here by (rewrite lenN_app, Lr; vm_compute; discriminate).
    set (t := bstr "TAG" ++ r).
    assert (E3 : takeN 3 (takeN 4 t) = bstr "TAG") by (rewrite takeN_takeN; change (N.min 3 4) with 3; now apply takeN_app_exact).
    destruct (beqb (takeN 4 t) (bstr "fLaC")) eqn:E; [apply beqb_eq in E; rewrite E in E3; discriminate|]. rewrite E3.
    change (beqb (bstr "TAG") (bstr "ID3")) with false. rewrite beqb_refl. unfold blk, p_ty, p_hd, p_dt. cbn [fst snd]. unfold t. rewrite lenN_app, Lr. reflexivity.
  - assert (L3 : lenN (be 3 (lenN d)) = 3) by (unfold be; rewrite lenN_rev, lenN_le; reflexivity).
    assert (Tb : b2n (n2b ty) = ty) by (apply b2n_n2b_small; lia). cbn [In] in Hi.
    assert (Ea : p_all (mpart ty d) = [n2b ty] ++ be 3 (lenN d) ++ d) by reflexivity.
    rewrite here_end by discriminate. rewrite sub_here by (rewrite Ea, !lenN_app, L3; change (lenN [n2b ty]) with 1; lia). rewrite Ea.
    assert (E4 : takeN 4 ([n2b ty] ++ be 3 (lenN d) ++ d) = n2b ty :: be 3 (lenN d)) by (rewrite app_assoc; apply takeN_app_exact; rewrite lenN_cons, L3; reflexivity).
    rewrite E4.
    destruct (beqb _ (bstr "fLaC")) eqn:E; [apply beqb_eq in E; injection E as E _; apply n2b_eq in E; [|lia]; change (b2n "f"%byte) with 102 in E; lia|].
    destruct (beqb _ (bstr "ID3")) eqn:E1; [apply beqb_eq in E1; cbn [takeN] in E1; injection E1 as E1 _; apply n2b_eq in E1; [|lia]; change (b2n "I"%byte) with 73 in E1; lia|].
    destruct (beqb _ (bstr "TAG")) eqn:E2; [apply beqb_eq in E2; cbn [takeN] in E2; injection E2 as E2 _; apply n2b_eq in E2; [|lia]; change (b2n "T"%byte) with 84 in E2; lia|].
    clear E E1 E2. rewrite Tb. replace (ty =? 255) with false by lia. unfold unpack_be, sub. change (N.of_nat 4) with 4. rewrite dropN_0. rewrite takeN_all by (rewrite lenN_cons, L3; lia). rewrite lenN_cons, L3. change (1 + 3 =? 4) with true. cbv iota.
    replace (unbe (x00 :: be 3 (lenN d))) with (lenN d) by (rewrite unbe_cons, unbe_be_small by exact Ld; change (b2n x00) with 0; lia).
    cbn [bind f_size]. replace (_ <? _)%Z with false by (rewrite !lenN_app; lia). reflexivity.
Qed.
Lemma next_frames (pre frames : bytes) tag : starts [xff] frames -> 128 <= lenN (pre ++ frames ++ opt tag) ->
  match tag with Some t => id3v1 t | None => ~ before_end (bstr "TAG") (pre ++ frames ++ opt tag) 128 end ->
  flac_next (pre ++ frames ++ opt tag) (lenN pre) = Ok (Some (blk (lenN pre) (Num 255, [], frames))).
Proof.
  intros (r & ->) L Ht. unfold flac_next. rewrite here_end by discriminate.
  assert (E : exists q, sub (lenN pre) 4 (pre ++ ([xff] ++ r) ++ opt tag) = xff :: q).
  { unfold sub. rewrite dropN_app_exact by reflexivity. cbn [app takeN]. eexists. reflexivity. }
  destruct E as (q & ->). destruct (beqb _ (bstr "fLaC")) eqn:E1; [apply beqb_eq in E1; discriminate|]. clear E1.
  destruct (beqb _ (bstr "ID3")) eqn:E1; [apply beqb_eq in E1; discriminate|]. clear E1. destruct (beqb _ (bstr "TAG")) eqn:E1; [apply beqb_eq in E1; discriminate|]. clear E1.
  change (b2n xff =? 255) with true. cbv iota. replace (_ <? 128) with false by lia. set (f := pre ++ _) in *.
  assert (Lf : lenN f = lenN pre + lenN ([xff] ++ r) + lenN (opt tag)) by (unfold f; rewrite !lenN_app; lia).
  assert (Et : beqb (sub (lenN f - 128) 3 f) (bstr "TAG") = match tag with Some _ => true | None => false end).
  { destruct tag as [t|]; cbn [opt] in *.
    - destruct Ht as (u & -> & Lu). apply beqb_eq. replace (lenN f - 128) with (lenN (pre ++ [xff] ++ r)) by (rewrite Lf, (lenN_app pre), (lenN_app (bstr "TAG")), Lu; change (lenN (bstr "TAG")) with 3; lia). unfold f. rewrite (app_assoc pre ([xff] ++ r)). now apply sub_app_exact.
    - destruct (beqb _ _) eqn:E; [|reflexivity]. apply beqb_eq in E. exfalso. apply Ht. apply before_sub; [discriminate|exact E|exact L|vm_compute; discriminate]. }
  rewrite Et. cbn [bind f_size]. unfold blk, p_ty, p_hd, p_dt. cbn [fst snd].
  destruct tag as [t|]; cbn [opt] in *.
  - destruct Ht as (u & Eu & Lu). assert (lenN t = 128) by (rewrite Eu, lenN_app, Lu; reflexivity). replace (_ <? _)%Z with false by lia. repeat f_equal. lia.
  - change (lenN []) with 0 in Lf. replace (_ <? _)%Z with false by lia. repeat f_equal. lia.
Qed.
Lemma ppart_ne p : ppart p -> p_all p <> [].
Proof. intros H. destruct H as [|v sz d Lv Hb|t (r & -> & Lr)|ty d Ht Hi Ld]; discriminate. Qed.
Lemma reads_parts ps : Forall ppart ps -> reads (pflat ps) ps.
Proof.
  intros H. split; [reflexivity|]. split; [eapply Forall_impl; [apply ppart_ne|exact H]|]. intros a p b ->. rewrite pflat_app, pflat_cons. apply next_part.
  apply Forall_app in H as [_ H]. now inversion H.
Qed.
Definition tag_part (tag : option bytes) : list fpart := match tag with Some t => [(Named (str "TAG"), [], t)] | None => [] end.
Lemma pflat_tag tag : pflat (tag_part tag) = opt tag. Proof. destruct tag; [|reflexivity]. unfold pflat. cbn. now rewrite app_nil_r. Qed.
Lemma reads_file ps frames tag : Forall ppart ps -> starts [xff] frames -> 128 <= lenN (pflat ps ++ frames ++ opt tag) ->
  match tag with Some t => id3v1 t | None => ~ before_end (bstr "TAG") (pflat ps ++ frames ++ opt tag) 128 end ->
  reads (pflat ps ++ frames ++ opt tag) (ps ++ (Num 255, [], frames) :: tag_part tag).
Proof.
  intros H Hf L Ht. split; [rewrite pflat_app, pflat_cons, pflat_tag; reflexivity|]. split.
  - apply Forall_app. split; [eapply Forall_impl; [apply ppart_ne|exact H]|]. constructor; [destruct Hf as (r & ->); discriminate|]. destruct tag as [t|]; [|constructor]. constructor; [|constructor]. apply ppart_ne. now constructor.
  - intros a p b E. assert (C : (exists b', ps = a ++ p :: b') \/ (a = ps /\ p = (Num 255, [], frames)) \/ (exists t, tag = Some t /\ a = ps ++ [(Num 255, [], frames)] /\ p = (Named (str "TAG"), [], t))).
    { clear - E. revert a E. induction ps as [|q ps IH]; intros a E.
      - cbn [app] in E. destruct a as [|x a]; cbn [app] in E; [injection E as -> _; auto|]. injection E as <- E. destruct tag as [t|]; cbn [tag_part] in E.
        + destruct a as [|y a]; cbn [app] in E; [injection E as <- _; right; right; exists t; auto|]. injection E as _ E. destruct a; discriminate.
        + destruct a; discriminate.
      - destruct a as [|x a]; cbn [app] in E; [injection E as -> _; left; eexists; reflexivity|]. injection E as <- E. destruct (IH a E) as [(b' & ->)|[[-> ->]|(t & -> & -> & ->)]].
        + left. exists b'. reflexivity.
        + auto.
        + right. right. exists t. auto. }
    destruct C as [(b' & ->)|[[-> ->]|(t & -> & -> & ->)]].
    + apply Forall_app in H as [_ H]. inversion H as [|? ? Hp _]; subst. rewrite pflat_app, pflat_cons, <- !app_assoc. now apply next_part.
    + now apply next_frames.
    + rewrite pflat_app. unfold pflat at 3 5. cbn [map concat]. change (p_all (Num 255, [], frames)) with frames. rewrite app_nil_r. cbn [opt]. rewrite (app_assoc (pflat ps)).
      change t with (p_all (Named (str "TAG"), [], t)) at 1. rewrite <- (app_nil_r (p_all _)). apply next_part. now constructor.
Qed.

(** ** The CRC of a block *)
Lemma fcrc_ok (f : bytes) at_ size : forall fuel read to_read crc, crc < 2 ^ 32 -> 0 < to_read -> read <= size -> at_ + size <= lenN f ->
  (N.to_nat ((size - read) / to_read) + 1 < fuel)%nat ->
  fcrc_loop fuel f at_ size read to_read crc = Ok (zcrc32 (sub (at_ + read) (size - read) f) crc).
Proof.
  induction fuel as [|fuel IH]; intros read to_read crc Hc H0 Hr Hs Hf; [inversion Hf|]. cbn [fcrc_loop]. destruct (N.ltb_spec read size) as [L|L].
  2:{ replace (size - read) with 0 by lia. unfold sub. cbn [takeN]. replace (takeN 0 (dropN (at_ + read) f)) with (@nil byte) by (destruct (dropN _ f); reflexivity). now rewrite zcrc32_nil. }
  destruct (N.ltb_spec size (read + to_read)) as [L2|L2].
  - destruct fuel as [|fuel]; [exfalso; set (k := N.to_nat _) in Hf; clearbody k; lia|]. cbn [fcrc_loop]. replace (read + (size - read)) with size by lia. rewrite N.ltb_irrefl. reflexivity.
  - rewrite IH.
    + replace (sub (at_ + read) (size - read) f) with (sub (at_ + read) to_read f ++ sub (at_ + (read + to_read)) (size - (read + to_read)) f); [now rewrite zcrc32_app|].
      unfold sub. replace (at_ + (read + to_read)) with (to_read + (at_ + read)) by lia. rewrite <- (dropN_dropN to_read (at_ + read)). replace (size - read) with (to_read + (size - (read + to_read))) by lia. now rewrite takeN_add.
    + now apply zcrc32_lt.
    + exact H0.
    + lia.
    + exact Hs.
    + replace ((size - read) / to_read) with ((size - (read + to_read)) / to_read + 1) in Hf; [set (k := _ / to_read) in *; clearbody k; lia|].
      replace (size - read) with (size - (read + to_read) + 1 * to_read) by lia. rewrite N.div_add by lia. reflexivity.
Qed.

(** ** The steps on parts *)
Definition named (s : text) (p : fpart) : bool := match p_ty p with Named t => teqb t s | Num _ => false end.
Definition num (n : N) (p : fpart) : bool := match p_ty p with Named _ => false | Num m => m =? n end.
Definition last' (p : fpart) : bool := match p_ty p with Named _ => false | Num n => has n 0x80 end.
Definition profile' (s : N * Z * option track_data) (p : fpart) : result ((N * Z * option track_data) * move) :=
  let '(crc, meta, t) := s in
  let meta := (meta + Z.of_N (lenN (p_hd p)))%Z in
  let crc := zcrc32 (p_hd p) crc in
  if named (str "fLaC") p then Ok ((crc, meta, t), Skip)
  else if num 255 p then
    Ok ((zcrc32 (p_dt p) crc, meta, Some {| td_flags := 0; td_number := 1; td_length := lenN (p_dt p); td_offset := 0; td_signature := takeN 256 (p_dt p) |}), Skip)
  else Ok ((zcrc32 (p_dt p) crc, (meta + Z.of_N (lenN (p_dt p)))%Z, t), Skip).
Lemma profile_at f pre p post s : fst (fst s) < 2 ^ 32 -> f = pre ++ p_all p ++ post -> fprofile_step f s (blk (lenN pre) p) = profile' s p.
Proof.
  destruct s as [[crc m] t]. cbn [fst]. intros Hc Ef. unfold fprofile_step, profile'. change (is_named (str "fLaC") (blk (lenN pre) p)) with (named (str "fLaC") p). change (is_frame_data (blk (lenN pre) p)) with (num 255 p).
  change (f_header (blk (lenN pre) p)) with (p_hd p). change (f_size (blk (lenN pre) p)) with (Z.of_N (lenN (p_dt p))). destruct (named _ p); [reflexivity|]. replace (_ <? 0)%Z with false by lia. rewrite N2Z.id.
  assert (Ed : f_data (blk (lenN pre) p) = lenN (pre ++ p_hd p)) by (unfold f_data, blk; cbn [f_start f_header]; now rewrite lenN_app).
  assert (Ef2 : f = (pre ++ p_hd p) ++ p_dt p ++ post) by (rewrite Ef; unfold p_all; now rewrite <- !app_assoc).
  rewrite Ed. rewrite fcrc_ok; [|now apply zcrc32_lt|lia|lia|rewrite Ef2, !lenN_app; lia|rewrite N.sub_0_r; set (k := _ / _); clearbody k; lia].
  rewrite N.add_0_r, N.sub_0_r. cbn [bind]. rewrite Ef2. rewrite (sub_app_exact (pre ++ p_hd p) (p_dt p) post) by reflexivity. destruct (num 255 p); [|reflexivity].
  repeat f_equal. change SIG_SIZE with 256. destruct (N.ltb_spec 256 (lenN (p_dt p))); [apply sub_here; lia|]. now rewrite takeN_all by lia.
Qed.
Definition create' (app : text) (fd : file_data) (t : track_data) (fp : option (N * bytes)) (s : bytes) (p : fpart) : result (bytes * move) :=
  let s := s ++ p_hd p in
  do s <- (if named (str "fLaC") p then
             do x <- (do d <- serialize_file app fd; flac_block x73 d);
             do y <- (do d <- serialize_track t; flac_block x74 d);
             Ok (s ++ x ++ y ++ stored_print (flac_block x75) fp)
           else Ok s);
  if num 255 p then Ok (s, Skip) else Ok (s ++ p_dt p, ReadOn).
Lemma create_at app fd t fp f pre p post s : f = pre ++ p_all p ++ post -> fcreate_step app fd t fp f s (blk (lenN pre) p) = create' app fd t fp s p.
Proof. intros ->. unfold fcreate_step, create'. rewrite contents_blk. reflexivity. Qed.
Definition load' (s : option file_data * tracks) (p : fpart) : result ((option file_data * tracks) * move) :=
  do r <- (if num 0x73 p then do d <- parse_file_data (p_dt p); Ok ((Some d, snd s), ReadOn)
           else if num 0x74 p then
             do t <- parse_track (p_dt p); Ok ((fst s, set_track (td_number t) (track_of t) (snd s)), ReadOn)
           else if num 0x75 p then
             do t <- get_track 1 (snd s);
             do t <- read_print t (p_dt p);
             Ok ((fst s, set_track 1 t (snd s)), ReadOn)
           else Ok (s, Skip));
  if num 0 p || last' p then Ok (fst r, Stop) else Ok r.
Lemma load_at f pre p post s : f = pre ++ p_all p ++ post -> fload_step f s (blk (lenN pre) p) = load' s p.
Proof. intros ->. unfold fload_step, load'. rewrite contents_blk. reflexivity. Qed.
Definition extract' (ts : tracks) (p : fpart) : result (tracks * move) :=
  if num 255 p then
    do t <- get_track 1 ts;
    Ok (set_track 1 (mkTrack (t_td t) (t_offset t) (t_match t) (Some (p_dt p)) (t_print t)) ts, ReadOn)
  else Ok (ts, Skip).
Lemma extract_at f pre p post s : f = pre ++ p_all p ++ post -> fextract_step f s (blk (lenN pre) p) = extract' s p.
Proof. intros ->. unfold fextract_step, extract'. rewrite contents_blk. reflexivity. Qed.
Definition rebuild' (ts : tracks) (s : bytes * N) (p : fpart) : result ((bytes * N) * move) :=
  if named (str "fLaC") p then Ok ((fst s ++ bstr "fLaC", snd s), Skip)
  else
    match p_ty p with
    | Named _ => Err TypeError
    | Num n =>
      if ((n =? 0x73) || (n =? 0x74) || (n =? 0x75)) && (snd s <=? 3) then Ok ((fst s, snd s + 1), Skip)
      else
        let out := fst s ++ p_hd p ++ p_dt p in
        if last' p then
          do t <- get_track 1 ts;
          match t_file t with None => Err AttributeError | Some d => Ok ((out ++ d, snd s), ReadOn) end
        else Ok ((out, snd s), ReadOn)
    end.
Lemma rebuild_at ts f pre p post s : f = pre ++ p_all p ++ post -> frebuild_step ts f s (blk (lenN pre) p) = rebuild' ts s p.
Proof. intros ->. unfold frebuild_step, rebuild'. rewrite contents_blk. reflexivity. Qed.

(** ** Profile and creation *)
Definition plain (p : fpart) : Prop := p_ty p <> Num 255 /\ (p_ty p = Named (str "fLaC") -> p_dt p = []).
Lemma plain_num p : plain p -> num 255 p = false.
Proof. intros [H _]. unfold num. destruct (p_ty p) as [|n]; [reflexivity|]. apply N.eqb_neq. congruence. Qed.
Lemma ppart_plain p : ppart p -> plain p.
Proof. intros H. destruct H; split; cbn; intros E; try discriminate; try reflexivity. injection E as ->. lia. Qed.
Lemma named_ty s p : named s p = true <-> p_ty p = Named s.
Proof. unfold named. destruct (p_ty p) as [t|]; [|split; discriminate]. rewrite teqb_eq. split; [intros ->|intros [= ->]]; reflexivity. Qed.
Lemma profile_inv s p s' m : fst (fst s) < 2 ^ 32 -> profile' s p = Ok (s', m) -> fst (fst s') < 2 ^ 32.
Proof.
  destruct s as [[crc me] t]. cbn [fst]. intros H. unfold profile'. assert (zcrc32 (p_hd p) crc < 2 ^ 32) by now apply zcrc32_lt. destruct (named _ _); [intros [= <- _]; assumption|].
  destruct (num _ _); intros [= <- _]; now apply zcrc32_lt.
Qed.
Lemma profile_plain ps : Forall plain ps -> forall rest crc m t, crc < 2 ^ 32 ->
  run profile' (ps ++ rest) (crc, m, t) = run profile' rest (zcrc32 (pflat ps) crc, (m + Z.of_N (lenN (pflat ps)))%Z, t).
Proof.
  induction 1 as [|p ps Hp _ IH]; intros rest crc m t Hc; cbn [app run].
  - unfold pflat. cbn [map concat]. rewrite zcrc32_nil by exact Hc. change (lenN []) with 0. now rewrite Z.add_0_r.
  - assert (Hc' : zcrc32 (p_hd p) crc < 2 ^ 32) by now apply zcrc32_lt.
    rewrite pflat_cons. unfold profile' at 1. rewrite (plain_num _ Hp). destruct (named _ p) eqn:E; cbn [bind fst snd].
    + apply named_ty in E. destruct Hp as [_ Hd]. unfold p_all. rewrite (Hd E), app_nil_r. rewrite IH by exact Hc'. rewrite zcrc32_app, (lenN_app (p_hd p)). f_equal. f_equal. f_equal. lia.
    + rewrite IH by (now apply zcrc32_lt). unfold p_all. rewrite !zcrc32_app, !(lenN_app (_ ++ _)), lenN_app. f_equal. f_equal. f_equal. lia.
Qed.
Definition FRAMES (frames : bytes) : fpart := (Num 255, [], frames).
Definition sig_track (frames : bytes) : track_data := {| td_flags := 0; td_number := 1; td_length := lenN frames; td_offset := 0; td_signature := takeN 256 frames |}.
Lemma tag_plain tag : match tag with Some t => id3v1 t | None => True end -> Forall plain (tag_part tag).
Proof. destruct tag as [t|]; intros H; [|constructor]. constructor; [|constructor]. apply ppart_plain. now constructor. Qed.
Lemma profile_flac name ps frames tag : Forall ppart ps -> match tag with Some t => id3v1 t | None => True end ->
  reads (pflat ps ++ frames ++ opt tag) (ps ++ FRAMES frames :: tag_part tag) ->
  flac_profile name (pflat ps ++ frames ++ opt tag) = Ok ({| fd_flags := NEW_FLAGS; fd_appname := []; fd_sample_name := name; fd_size := lenN (pflat ps ++ frames ++ opt tag); fd_crc32 := crc32 (pflat ps ++ frames ++ opt tag) |}, Some (sig_track frames)).
Proof.
  intros Hp Ht R. unfold flac_profile. rewrite (read_run_inv (fun s => fst (fst s) < 2 ^ 32) _ profile' _ _ _ R); [|intros; now apply profile_at with (post := post)|apply profile_inv|reflexivity].
  rewrite profile_plain; [|eapply Forall_impl; [apply ppart_plain|exact Hp]|reflexivity]. cbn [run]. unfold profile' at 1. change (named (str "fLaC") (FRAMES frames)) with false. change (num 255 (FRAMES frames)) with true. cbv iota. cbn [bind fst snd].
  change (p_hd (FRAMES frames)) with (@nil byte). change (p_dt (FRAMES frames)) with frames. assert (C : zcrc32 (pflat ps) 0 < 2 ^ 32) by now apply zcrc32_lt. rewrite zcrc32_nil by exact C.
  pose proof (profile_plain _ (tag_plain tag Ht) []) as T. rewrite app_nil_r in T. rewrite T by (now apply zcrc32_lt). cbn [run bind]. clear T. rewrite pflat_tag.
  rewrite <- !zcrc32_app, <- ?app_assoc. rewrite !lenN_app. cbn [td_length]. change (lenN []) with 0. replace (_ =? _)%Z with true by lia. reflexivity.
Qed.
Lemma create_plain app fd t fp ps : Forall plain ps -> Forall (fun p => p_ty p <> Named (str "fLaC")) ps -> forall rest s,
  run (create' app fd t fp) (ps ++ rest) s = run (create' app fd t fp) rest (s ++ pflat ps).
Proof.
  induction 1 as [|p ps Hp _ IH]; intros Hm rest s; cbn [Datatypes.app run]; [unfold pflat; cbn [map concat]; now rewrite app_nil_r|].
  inversion Hm as [|? ? Hn Hm']; subst. unfold create' at 1. rewrite (plain_num _ Hp). destruct (named _ p) eqn:E; [now apply named_ty in E|]. cbn [bind fst snd]. rewrite IH by exact Hm'. rewrite pflat_cons. unfold p_all. now rewrite <- !app_assoc.
Qed.
Lemma create_mark app fd t fp rest s : run (create' app fd t fp) (MARK :: rest) s =
  do x <- (do d <- serialize_file app fd; flac_block x73 d);
  do y <- (do d <- serialize_track t; flac_block x74 d);
  run (create' app fd t fp) rest (s ++ bstr "fLaC" ++ x ++ y ++ stored_print (flac_block x75) fp).
Proof.
  cbn [run]. unfold create' at 1. change (named (str "fLaC") MARK) with true. change (num 255 MARK) with false. cbv iota. change (p_hd MARK) with (bstr "fLaC"). change (p_dt MARK) with (@nil byte).
  destruct (do d <- serialize_file app fd; flac_block x73 d) as [x|]; cbn [bind]; [|reflexivity]. destruct (do d <- serialize_track t; flac_block x74 d) as [y|]; cbn [bind]; [|reflexivity]. cbn [fst snd]. now rewrite app_nil_r, <- app_assoc.
Qed.
Lemma create_frames app fd t fp frames rest s : run (create' app fd t fp) (FRAMES frames :: rest) s = run (create' app fd t fp) rest s.
Proof. cbn [run]. unfold create' at 1. change (named (str "fLaC") (FRAMES frames)) with false. change (num 255 (FRAMES frames)) with true. cbv iota. cbn [bind fst snd]. change (p_hd (FRAMES frames)) with (@nil byte). now rewrite app_nil_r. Qed.

(** ** Pieces as parts *)
Definition bparts (blocks : list (N * bytes)) : list fpart := map (fun b => mpart (fst b) (snd b)) blocks.
Definition lpart (last : N * bytes) : fpart := mpart (128 + fst last) (snd last).
Definition stail (blocks : list (N * bytes)) (last : N * bytes) : list fpart := bparts blocks ++ [lpart last].
Lemma id_part t : id3v2 t -> exists p, ppart p /\ p_ty p = Named (str "ID3") /\ p_all p = t.
Proof.
  intros (v & sz & body & -> & Lv & Hb). exists (Named (str "ID3"), bstr "ID3" ++ v ++ sz, body). split; [now constructor|]. split; [reflexivity|]. unfold p_all, p_hd, p_dt. cbn [fst snd]. now rewrite <- !app_assoc.
Qed.
Lemma id_parts ids : Forall id3v2 ids -> exists ps, Forall ppart ps /\ Forall (fun p => p_ty p = Named (str "ID3")) ps /\ pflat ps = concat ids /\ length ps = length ids.
Proof.
  induction 1 as [|t ids Ht _ (ps & H1 & H2 & H3 & H4)]; [exists []; repeat (split; [constructor|]); split; reflexivity|].
  destruct (id_part t Ht) as (p & P1 & P2 & P3). exists (p :: ps). split; [now constructor|]. split; [now constructor|]. split; [rewrite pflat_cons, P3, H3; reflexivity|cbn [length]; now rewrite H4].
Qed.
Lemma piece_parts l : Forall piece l -> exists ps, Forall ppart ps /\ pflat ps = concat l.
Proof.
  induction 1 as [|t l Ht _ (ps & H1 & H2)]; [exists []; split; [constructor|reflexivity]|].
  assert (exists p, ppart p /\ p_all p = t) as (p & P1 & P2).
  { destruct Ht as [|t Ht|ty d Hy Hi Hd].
    - exists MARK. split; [constructor|reflexivity].
    - destruct (id_part t Ht) as (p & P1 & _ & P3). now exists p.
    - exists (mpart ty d). split; [now constructor|reflexivity]. }
  exists (p :: ps). split; [now constructor|]. rewrite pflat_cons, P2, H2. reflexivity.
Qed.
Lemma bparts_ok blocks : Forall own_block blocks -> Forall ppart (bparts blocks).
Proof.
  induction 1 as [|[ty d] l [[Ht Hi] Hd] _ IH]; [constructor|]. cbn [bparts map fst snd] in *. constructor; [|exact IH]. constructor; [lia| |exact Hd]. cbn [In] in *. lia.
Qed.
Lemma lpart_ok last : last_block last -> ppart (lpart last).
Proof. destruct last as [ty d]. intros [Ht Hd]. cbn [fst snd] in *. change (lpart (ty, d)) with (mpart (128 + ty) d). constructor; [lia| |exact Hd]. cbn [In]. lia. Qed.
Lemma stail_ok blocks last : Forall own_block blocks -> last_block last -> Forall ppart (stail blocks last).
Proof. intros H1 H2. apply Forall_app. split; [now apply bparts_ok|]. constructor; [now apply lpart_ok|constructor]. Qed.
Lemma pflat_pieces blocks last : pflat (MARK :: stail blocks last) = concat (sample_pieces blocks last).
Proof.
  unfold sample_pieces, stail. rewrite pflat_cons, pflat_app. cbn [concat]. rewrite concat_app. f_equal. f_equal. unfold pflat, bparts. now rewrite map_map.
Qed.
Lemma mpart_ty ty d (s : text) : p_ty (mpart ty d) <> Named s. Proof. discriminate. Qed.
Lemma stail_named blocks last : Forall (fun p => p_ty p <> Named (str "fLaC")) (stail blocks last).
Proof.
  apply Forall_app. split; [|constructor; [discriminate|constructor]]. unfold bparts. apply Forall_forall. intros p Hp. apply in_map_iff in Hp as ([ty d] & <- & _). discriminate.
Qed.
Lemma tagged_split ids blocks last frames tag : tagged_ok ids blocks last frames tag -> exists ips, Forall ppart ips /\ Forall (fun p => p_ty p = Named (str "ID3")) ips /\ length ips = length ids /\
  tagged_sample ids blocks last frames tag = pflat (ips ++ MARK :: stail blocks last) ++ frames ++ opt tag /\
  reads (tagged_sample ids blocks last frames tag) ((ips ++ MARK :: stail blocks last) ++ FRAMES frames :: tag_part tag).
Proof.
  intros (Hi & Hb & Hl & Hp & Hs & L & Ht). destruct (id_parts ids Hi) as (ips & P1 & P2 & P3 & P4). exists ips. split; [exact P1|]. split; [exact P2|]. split; [exact P4|].
  assert (E : tagged_sample ids blocks last frames tag = pflat (ips ++ MARK :: stail blocks last) ++ frames ++ opt tag).
  { unfold tagged_sample, flac_file. rewrite pflat_app, P3, pflat_pieces, concat_app. reflexivity. }
  split; [exact E|]. unfold tagged_sample, flac_file in E. unfold flac_file in L, Ht. rewrite E in L, Ht. unfold tagged_sample, flac_file. rewrite E. apply reads_file; auto.
  apply Forall_app. split; [exact P1|]. constructor; [constructor|now apply stail_ok].
Qed.

(** ** The SRS *)
Lemma flac_block_ok ty d : ty < 256 -> lenN d < 2 ^ 32 -> flac_block (n2b ty) d = Ok (p_all (mpart ty d)).
Proof.
  intros Ht L. unfold flac_block, pack_be. change (8 * N.of_nat 4) with 32. replace (lenN d <? 2 ^ 32) with true by (symmetry; now apply N.ltb_lt). cbn [bind]. rewrite be_cons. cbn [dropN]. rewrite dropN_0. reflexivity.
Qed.
Definition uparts (fp : option (N * bytes)) : list fpart :=
  match fp with Some (d, t) => if d <? 2 ^ 32 then [mpart 117 (le 4 d ++ le 4 (lenN t) ++ t)] else [] | None => [] end.
Lemma uparts_all fp : print_ok fp -> stored_print (flac_block x75) fp = pflat (uparts fp).
Proof.
  destruct fp as [[d t]|]; [|reflexivity]. cbn [print_ok]. intros L. unfold stored_print, print_data, uparts. cbn [fst snd]. unfold pack at 1. change (2 ^ (8 * N.of_nat 4)) with (2 ^ 32). destruct (d <? 2 ^ 32) eqn:E; [|reflexivity]. cbn [bind].
  assert (L2 : lenN t < 2 ^ 32) by (change (2 ^ 24) with 16777216 in L; change (2 ^ 32) with 4294967296; lia). rewrite pack_ok by exact L2. cbn [bind].
  change x75 with (n2b 117). rewrite flac_block_ok; [unfold pflat; cbn [map concat]; now rewrite app_nil_r|reflexivity|].
  rewrite !lenN_app, !lenN_le. change (N.of_nat 4) with 4. change (2 ^ 24) with 16777216 in L. change (2 ^ 32) with 4294967296. lia.
Qed.
Lemma uparts_ok fp : print_ok fp -> Forall ppart (uparts fp).
Proof.
  destruct fp as [[d t]|]; [|constructor]. cbn [print_ok]. intros L. unfold uparts. destruct (d <? 2 ^ 32); [|constructor]. constructor; [|constructor]. constructor; [reflexivity|cbn [In]; lia|].
  rewrite !lenN_app, !lenN_le. change (N.of_nat 4) with 4. lia.
Qed.
Definition sparts (a b : bytes) (fp : option (N * bytes)) : list fpart := mpart 115 a :: mpart 116 b :: uparts fp.
Lemma file_small app fd a : serialize_file app fd = Ok a -> lenN a < 2 ^ 24.
Proof.
  intros H. apply serialize_inv in H as (x & y & _ & _ & Lx & Ly & _ & _ & ->). unfold file_layout. rewrite !lenN_app, !lenN_le. change (2 ^ 24) with 16777216. change (2 ^ 16) with 65536 in *. change (N.of_nat 2) with 2. change (N.of_nat 8) with 8. change (N.of_nat 4) with 4. lia.
Qed.
Lemma track_small t b : serialize_track t = Ok b -> lenN b < 2 ^ 24.
Proof.
  intros H. apply track_inv in H as (_ & _ & _ & _ & Ls & ->). unfold track_layout. rewrite !lenN_app, !lenN_le. change (2 ^ 24) with 16777216. change (2 ^ 16) with 65536 in *. destruct (_ <=? _); destruct (has _ _); change (N.of_nat 2) with 2; change (N.of_nat 8) with 8; change (N.of_nat 4) with 4; lia.
Qed.
Definition sparts_all ips blocks last tag a b fp : list fpart := ips ++ MARK :: sparts a b fp ++ stail blocks last ++ tag_part tag.
Lemma srs_parts app name big offset fp ids blocks last frames tag srs : tagged_ok ids blocks last frames tag -> print_ok fp ->
  flac_srs app name big offset fp (tagged_sample ids blocks last frames tag) = Ok srs ->
  exists ips a b fd, Forall ppart ips /\ Forall (fun p => p_ty p = Named (str "ID3")) ips /\ length ips = length ids /\ pflat ips = concat ids /\
  serialize_file app fd = Ok a /\ fd_crc32 fd = crc32 (tagged_sample ids blocks last frames tag) /\ serialize_track (with_stored big offset (sig_track frames)) = Ok b /\
  srs = pflat (sparts_all ips blocks last tag a b fp) /\ reads srs (sparts_all ips blocks last tag a b fp).
Proof.
  intros W Hfp H. destruct (tagged_split _ _ _ _ _ W) as (ips & P1 & P2 & P4 & E & R). destruct W as (Hi & Hb & Hl & Hp & Hs & L & Ht).
  assert (Ht' : match tag with Some t => id3v1 t | None => True end) by (destruct tag; [exact Ht|exact I]).
  assert (PP : Forall ppart (ips ++ MARK :: stail blocks last)) by (apply Forall_app; split; [exact P1|]; constructor; [constructor|now apply stail_ok]).
  unfold flac_srs in H. rewrite E in R, H. rewrite (profile_flac name _ frames tag PP Ht' R) in H. cbn [bind fst snd] in H. set (fd := {| fd_flags := NEW_FLAGS |}) in H. set (t := with_stored big offset _) in H.
  rewrite (read_run _ (create' app fd t fp) _ _ _ R) in H by (intros; now apply create_at with (post := post)).
  rewrite <- app_assoc in H. rewrite create_plain in H; [|eapply Forall_impl; [apply ppart_plain|exact P1]|eapply Forall_impl; [|exact P2]; intros p Ep; rewrite Ep; discriminate].
  cbn [Datatypes.app] in H. rewrite create_mark in H.
  destruct (serialize_file app fd) as [a|] eqn:Ea; [|discriminate]. cbn [bind] in H. change x73 with (n2b 115) in H. pose proof (file_small _ _ _ Ea) as La.
  rewrite flac_block_ok in H; [|reflexivity|change (2 ^ 24) with 16777216 in La; change (2 ^ 32) with 4294967296; lia]. cbn [bind] in H.
  destruct (serialize_track t) as [b|] eqn:Eb; [|discriminate]. cbn [bind] in H. change x74 with (n2b 116) in H. pose proof (track_small _ _ Eb) as Lb.
  rewrite flac_block_ok in H; [|reflexivity|change (2 ^ 24) with 16777216 in Lb; change (2 ^ 32) with 4294967296; lia]. cbn [bind] in H.
  rewrite create_plain in H; [|eapply Forall_impl; [apply ppart_plain|now apply stail_ok]|apply stail_named]. rewrite create_frames in H.
  rewrite <- (app_nil_r (tag_part tag)) in H. rewrite create_plain in H; [|now apply tag_plain|destruct tag; [constructor; [discriminate|constructor]|constructor]]. cbn [run] in H. apply ok_inj in H.
  assert (S : srs = pflat (sparts_all ips blocks last tag a b fp)).
  { rewrite <- H. unfold sparts_all, sparts. rewrite pflat_app, pflat_cons. cbn [Datatypes.app]. rewrite !pflat_cons, !pflat_app, (uparts_all _ Hfp). change (p_all MARK) with (bstr "fLaC"). rewrite <- !app_assoc. reflexivity. }
  exists ips, a, b, fd. split; [exact P1|]. split; [exact P2|]. split; [exact P4|]. split.
  { unfold tagged_sample, flac_file in E. rewrite pflat_app, pflat_pieces, concat_app, <- !app_assoc in E. apply app_inv_tail in E. congruence. }
  split; [exact Ea|]. split; [rewrite E; reflexivity|]. split; [exact Eb|]. split; [exact S|]. rewrite S. apply reads_parts. unfold sparts_all. apply Forall_app. split; [exact P1|]. constructor; [constructor|].
  apply Forall_app. split; [constructor; [constructor; [reflexivity|cbn [In]; lia|exact La]|constructor; [constructor; [reflexivity|cbn [In]; lia|exact Lb]|now apply uparts_ok]]|].
  apply Forall_app. split; [now apply stail_ok|]. destruct tag; [|constructor]. constructor; [now constructor|constructor].
Qed.

(** ** Loading *)
Lemma has128 n : n < 256 -> has n 128 = (128 <=? n).
Proof.
  intros H. assert (F : forallb (fun k => Bool.eqb (has (N.of_nat k) 128) (128 <=? N.of_nat k)) (seq 0 256) = true) by (vm_compute; reflexivity).
  rewrite forallb_forall in F. specialize (F (N.to_nat n)). rewrite N2Nat.id in F. apply eqb_prop. apply F. apply in_seq. lia.
Qed.
Definition other (p : fpart) : Prop := num 115 p = false /\ num 116 p = false /\ num 117 p = false.
Lemma load_other ps : Forall other ps -> forall s, run load' ps s = Ok s.
Proof.
  induction 1 as [|p ps (H1 & H2 & H3) _ IH]; intros s; [reflexivity|]. cbn [run]. unfold load' at 1. rewrite H1, H2, H3. cbn [bind]. destruct (_ || _); cbn [bind fst snd]; [reflexivity|apply IH].
Qed.
Lemma load_named ps : Forall (fun p => exists s, p_ty p = Named s) ps -> forall rest s, run load' (ps ++ rest) s = run load' rest s.
Proof.
  induction 1 as [|p ps (n & Hn) _ IH]; intros rest s; [reflexivity|]. cbn [app run]. unfold load' at 1, num, last'. rewrite Hn. cbn [bind orb fst snd]. apply IH.
Qed.
Lemma stail_other blocks last : Forall own_block blocks -> last_block last -> Forall other (stail blocks last).
Proof.
  intros H [L _]. apply Forall_app. split.
  - induction H as [|[ty d] l [[Ht Hi] _] _ IH]; [constructor|]. constructor; [|exact IH]. cbn [fst snd In] in *. unfold other, num, mpart, p_ty. cbn [fst snd]. repeat split; lia.
  - constructor; [|constructor]. unfold other, num, lpart, mpart, p_ty. cbn [fst snd]. repeat split; lia.
Qed.
Lemma load_prints fp d (t : track) rest : print_ok fp -> exists t', t_td t' = t_td t /\ t_offset t' = t_offset t /\ t_match t' = t_match t /\ t_file t' = t_file t /\
  t_print t' = (match uparts fp with [] => t_print t | _ => fp end) /\
  run load' (uparts fp ++ rest) (Some d, ([(1, t)] : tracks)) = run load' rest (Some d, ([(1, t')] : tracks)).
Proof.
  intros Hfp. destruct fp as [[du fp]|]; [|exists t; auto 10]. unfold uparts. destruct (du <? 2 ^ 32) eqn:E; [|exists t; auto 10]. apply N.ltb_lt in E. cbn [print_ok] in Hfp.
  assert (L : lenN fp < 2 ^ 32) by (change (2 ^ 24) with 16777216 in Hfp; change (2 ^ 32) with 4294967296; lia).
  exists (mkTrack (t_td t) (t_offset t) (t_match t) (t_file t) (Some (du, fp))). repeat (split; [reflexivity|]). cbn [app run]. unfold load' at 1.
  change (num 115 (mpart 117 _)) with false. change (num 116 (mpart 117 _)) with false. change (num 117 (mpart 117 _)) with true. change (num 0 (mpart 117 _)) with false. change (last' (mpart 117 _)) with false. cbv iota. cbn [snd get_track]. rewrite N.eqb_refl. cbn [bind].
  change (p_dt (mpart 117 ?x)) with x. unfold p_dt, mpart. cbn [snd]. unfold read_print. rewrite unpack_le0 by exact E. cbn [bind].
  rewrite unpack_at by (rewrite ?lenN_le; try reflexivity; exact L). cbn [bind]. cbn [set_track fst snd orb]. rewrite N.eqb_refl.
  replace (sub 8 (lenN fp) (le 4 du ++ le 4 (lenN fp) ++ fp)) with fp; [reflexivity|]. rewrite app_assoc. unfold sub. rewrite dropN_app_exact by (rewrite lenN_app, !lenN_le; reflexivity). now rewrite takeN_all by lia.
Qed.
Definition loaded (frames : bytes) (fp : option (N * bytes)) (t : track) : Prop :=
  td_length (t_td t) = lenN frames /\ td_signature (t_td t) = takeN 256 frames /\ t_match t = 0 /\ t_file t = None /\ t_print t = (match uparts fp with [] => None | _ => fp end).
Lemma load_flac app fd big offset frames ips blocks last tag a b fp srs : print_ok fp -> Forall own_block blocks -> last_block last -> Forall (fun p => p_ty p = Named (str "ID3")) ips ->
  serialize_file app fd = Ok a -> serialize_track (with_stored big offset (sig_track frames)) = Ok b ->
  reads srs (sparts_all ips blocks last tag a b fp) ->
  exists d t, flac_load_srs srs = Ok (d, [(1, t)]) /\ fd_crc32 d = fd_crc32 fd mod 2 ^ 32 /\ loaded frames fp t.
Proof.
  intros Hfp Hb Hl Hi Ea Eb R. unfold flac_load_srs. rewrite (read_run _ load' _ _ _ R) by (intros; now apply load_at with (post := post)). unfold sparts_all.
  rewrite load_named by (eapply Forall_impl; [|exact Hi]; intros p Ep; exists (str "ID3"); exact Ep). 
  change (MARK :: sparts a b fp ++ stail blocks last ++ tag_part tag) with ([MARK] ++ sparts a b fp ++ stail blocks last ++ tag_part tag). rewrite load_named by (constructor; [eexists; reflexivity|constructor]).
  apply parse_back in Ea as (d & P & Pc & _). set (td := with_stored big offset _) in Eb. pose proof (track_round td b [] Eb) as T. rewrite app_nil_r in T.
  specialize (T ltac:(split; [destruct big; discriminate|intros X; vm_compute in X; congruence])).
  destruct (load_prints fp d (track_of td) (stail blocks last ++ tag_part tag) Hfp) as (t & T1 & T2 & T3 & T4 & T5 & T6).
  exists d, t. split; [|split; [exact Pc|]].
  - unfold sparts. cbn [Datatypes.app run]. unfold load' at 1. change (num 115 (mpart 115 a)) with true. change (num 0 (mpart 115 a)) with false. change (last' (mpart 115 a)) with false. cbv iota. change (p_dt (mpart 115 a)) with a. rewrite P. cbn [bind orb fst snd].
    unfold load' at 1. change (num 115 (mpart 116 b)) with false. change (num 116 (mpart 116 b)) with true. change (num 0 (mpart 116 b)) with false. change (last' (mpart 116 b)) with false. cbv iota. change (p_dt (mpart 116 b)) with b. rewrite T. cbn [bind orb fst snd set_track].
    change (td_number td) with 1. match goal with |- context [run load' _ ?x] => change x with (Some d, ([(1, track_of td)] : tracks)) end. rewrite T6. rewrite load_other; [reflexivity|]. apply Forall_app. split; [now apply stail_other|]. destruct tag; [|constructor]. constructor; [repeat split|constructor].
  - unfold loaded. rewrite T1, T3, T4, T5. repeat split; reflexivity.
Qed.

(** ** Searching and extracting *)
Lemma split_parts ps frames tag a p b : ps ++ FRAMES frames :: tag_part tag = a ++ p :: b ->
  (exists b', ps = a ++ p :: b') \/ (a = ps /\ p = FRAMES frames) \/ (exists t, p = (Named (str "TAG"), [], t)).
Proof.
  revert a. induction ps as [|q ps IH]; intros a E.
  - cbn [app] in E. destruct a as [|x a]; cbn [app] in E; [injection E as -> _; auto|]. injection E as <- E. destruct tag as [t|]; cbn [tag_part] in E.
    + destruct a as [|y a]; cbn [app] in E; [injection E as <- _; right; right; exists t; auto|]. injection E as _ E. destruct a; discriminate.
    + destruct a; discriminate.
  - destruct a as [|x a]; cbn [app] in E; [injection E as -> _; left; eexists; reflexivity|]. injection E as <- E. destruct (IH a E) as [(b' & ->)|[[-> ->]|(t & ->)]].
    + left. exists b'. reflexivity.
    + auto.
    + right. right. exists t. auto.
Qed.
Definition find' (o : N) (ts : tracks) (p : fpart) : result (tracks * move) :=
  if num 255 p then
    do t <- get_track 1 ts;
    if beqb (td_signature (t_td t)) (takeN (lenN (td_signature (t_td t))) (p_dt p)) then
      Ok (set_track 1 (located t (Z.of_N o) (N.min (td_length (t_td t)) (lenN (p_dt p)))) ts, Stop)
    else Ok (ts, Skip)
  else Ok (ts, Skip).
Lemma find_at f o pre p post s : (num 255 p = true -> o = lenN pre) -> f = pre ++ p_all p ++ post -> ffind_step f s (blk (lenN pre) p) = find' o s p.
Proof.
  intros Ho Ef. unfold ffind_step, find'. change (is_frame_data (blk (lenN pre) p)) with (num 255 p). destruct (num 255 p); [|reflexivity]. rewrite (Ho eq_refl). destruct (get_track 1 s) as [t|]; [|reflexivity]. cbn [bind].
  change (f_size (blk (lenN pre) p)) with (Z.of_N (lenN (p_dt p))). change (f_start (blk (lenN pre) p)) with (lenN pre). replace (_ <? 0)%Z with false by lia. rewrite N2Z.id. set (sig := td_signature _).
  replace (sub (f_data (blk (lenN pre) p)) (if lenN (p_dt p) <? lenN sig then lenN (p_dt p) else lenN sig) f) with (takeN (lenN sig) (p_dt p)); [reflexivity|].
  assert (Ed : f_data (blk (lenN pre) p) = lenN (pre ++ p_hd p)) by (unfold f_data, blk; cbn [f_start f_header]; now rewrite lenN_app).
  assert (Ef2 : f = (pre ++ p_hd p) ++ p_dt p ++ post) by (rewrite Ef; unfold p_all; now rewrite <- !app_assoc).
  rewrite Ed, Ef2. destruct (N.ltb_spec (lenN (p_dt p)) (lenN sig)); rewrite sub_here by lia; [|reflexivity]. now rewrite !takeN_all by lia.
Qed.
Lemma skip_plain {S} (act : S -> fpart -> result (S * move)) ps : (forall s p, num 255 p = false -> act s p = Ok (s, Skip)) -> Forall plain ps -> forall rest s, run act (ps ++ rest) s = run act rest s.
Proof. intros Ha. induction 1 as [|p ps Hp _ IH]; intros rest s; [reflexivity|]. cbn [app run]. rewrite (Ha s p (plain_num _ Hp)). cbn [bind fst snd]. apply IH. Qed.
Lemma find_flac pieces frames tag (t : track) : flac_ok pieces frames tag -> td_length (t_td t) = lenN frames -> td_signature (t_td t) = takeN 256 frames ->
  flac_find [(1, t)] (flac_file pieces frames tag) = Ok [(1, located t (Z.of_N (lenN (concat pieces))) (lenN frames))].
Proof.
  intros (Hp & Hs & L & Ht) Hl Hg. destruct (piece_parts _ Hp) as (ps & P1 & P2). unfold flac_file in *. rewrite <- P2 in *. pose proof (reads_file ps frames tag P1 Hs L Ht) as R.
  unfold flac_find. rewrite (read_run_at _ (find' (lenN (pflat ps))) _ _ _ R).
  - rewrite skip_plain; [|intros s p E; unfold find'; now rewrite E|eapply Forall_impl; [apply ppart_plain|exact P1]]. cbn [run]. unfold find' at 1. change (num 255 _) with true. cbv iota. cbn [get_track]. rewrite N.eqb_refl. cbn [bind]. rewrite Hg, Hl.
    replace (takeN (lenN (takeN 256 frames)) (p_dt (Num 255, [], frames))) with (takeN 256 frames).
    2:{ unfold p_dt. cbn [snd]. rewrite lenN_takeN. destruct (N.le_ge_cases 256 (lenN frames)); [now rewrite N.min_l by assumption|]. rewrite N.min_r by assumption. now rewrite !takeN_all by lia. }
    rewrite beqb_refl. cbn [bind snd fst set_track]. rewrite N.eqb_refl. unfold p_dt. cbn [snd]. now rewrite N.min_id.
  - intros a p b s E Ef. apply find_at with (post := pflat b); [|exact Ef]. intros Hn. destruct (split_parts _ _ _ _ _ _ E) as [(b' & ->)|[[-> ->]|(u & ->)]]; [|reflexivity|discriminate].
    apply Forall_app in P1 as [_ P1]. inversion P1 as [|? ? Q _]; subst. apply ppart_plain, plain_num in Q. congruence.
Qed.
Lemma extract_flac pieces frames tag (t : track) : flac_ok pieces frames tag ->
  flac_extract [(1, t)] (flac_file pieces frames tag) = Ok [(1, mkTrack (t_td t) (t_offset t) (t_match t) (Some frames) (t_print t))].
Proof.
  intros (Hp & Hs & L & Ht). destruct (piece_parts _ Hp) as (ps & P1 & P2). unfold flac_file in *. rewrite <- P2 in *. pose proof (reads_file ps frames tag P1 Hs L Ht) as R.
  unfold flac_extract. rewrite (read_run _ extract' _ _ _ R) by (intros; now apply extract_at with (post := post)).
  rewrite skip_plain; [|intros s p E; unfold extract'; now rewrite E|eapply Forall_impl; [apply ppart_plain|exact P1]]. cbn [run]. unfold extract' at 1. change (num 255 _) with true. cbv iota. cbn [get_track]. rewrite N.eqb_refl. cbn [bind snd fst set_track]. rewrite N.eqb_refl.
  rewrite <- (app_nil_r (tag_part tag)). rewrite skip_plain; [reflexivity|intros s p E; unfold extract'; now rewrite E|]. apply tag_plain. destruct tag; [exact Ht|exact I].
Qed.

(** ** Rebuilding *)
Lemma rebuild_skips ts a b fp rest s : run (rebuild' ts) (sparts a b fp ++ rest) (s, 0) = run (rebuild' ts) rest (s, lenN (sparts a b fp)).
Proof.
  unfold sparts. cbn [app run]. unfold rebuild' at 1. change (named (str "fLaC") (mpart 115 a)) with false. change (p_ty (mpart 115 a)) with (Num 115). cbn [snd fst]. change ((115 =? 115) || (115 =? 116) || (115 =? 117)) with true. change (0 <=? 3) with true. cbn [andb bind fst snd].
  unfold rebuild' at 1. change (named (str "fLaC") (mpart 116 b)) with false. change (p_ty (mpart 116 b)) with (Num 116). cbn [snd fst]. change ((116 =? 115) || (116 =? 116) || (116 =? 117)) with true. change (0 + 1 <=? 3) with true. cbn [andb bind fst snd].
  destruct fp as [[d t]|]; [|reflexivity]. unfold uparts. destruct (d <? 2 ^ 32); [|reflexivity]. cbn [app run]. unfold rebuild' at 1. change (named (str "fLaC") (mpart 117 _)) with false. change (p_ty (mpart 117 ?x)) with (Num 117). unfold p_ty, mpart. cbn [snd fst]. change ((117 =? 115) || (117 =? 116) || (117 =? 117)) with true. reflexivity.
Qed.
Lemma rebuild_blocks ts blocks : Forall own_block blocks -> forall rest s n, run (rebuild' ts) (bparts blocks ++ rest) (s, n) = run (rebuild' ts) rest (s ++ pflat (bparts blocks), n).
Proof.
  induction 1 as [|[ty d] l [[Ht Hi] _] _ IH]; intros rest s n; [unfold pflat; cbn [bparts map concat app]; now rewrite app_nil_r|]. cbn [bparts map fst snd In app run] in *. fold (bparts l). rewrite pflat_cons. unfold rebuild' at 1.
  change (named (str "fLaC") (mpart ty d)) with false. change (p_ty (mpart ty d)) with (Num ty). cbv iota. replace ((ty =? 115) || (ty =? 116) || (ty =? 117)) with false by lia. cbn [andb].
  unfold last'. change (p_ty (mpart ty d)) with (Num ty). cbv iota. rewrite has128 by lia. replace (128 <=? ty) with false by lia. cbn [bind fst snd]. rewrite IH. unfold p_all. now rewrite <- !app_assoc.
Qed.
Lemma rebuild_last ts t data last rest s n : fst last < 127 -> get_track 1 ts = Ok t -> t_file t = Some data ->
  run (rebuild' ts) (lpart last :: rest) (s, n) = run (rebuild' ts) rest (s ++ p_all (lpart last) ++ data, n).
Proof.
  intros H G T. destruct last as [ty d]. cbn [fst] in H. change (lpart (ty, d)) with (mpart (128 + ty) d). cbn [run]. unfold rebuild' at 1.
  change (named (str "fLaC") (mpart (128 + ty) d)) with false. change (p_ty (mpart (128 + ty) d)) with (Num (128 + ty)). cbv iota. replace ((128 + ty =? 115) || (128 + ty =? 116) || (128 + ty =? 117)) with false by lia. cbn [andb].
  unfold last'. change (p_ty (mpart (128 + ty) d)) with (Num (128 + ty)). cbv iota. rewrite has128 by lia. replace (128 <=? 128 + ty) with true by lia. rewrite G. cbn [bind]. rewrite T. cbn [bind fst snd]. unfold p_all. now rewrite <- !app_assoc.
Qed.
Lemma rebuild_flac blocks last a b fp srs (t : track) data : Forall own_block blocks -> last_block last -> reads srs (sparts_all [] blocks last None a b fp) -> t_file t = Some data ->
  flac_rebuild [(1, t)] srs = Ok (flac_sample blocks last data, flac_sample blocks last data).
Proof.
  intros Hb [Hl _] R Ht. unfold flac_rebuild. cbn [forallb snd]. rewrite Ht. cbn [andb]. rewrite (read_run _ (rebuild' [(1, t)]) _ _ _ R) by (intros; now apply rebuild_at with (post := post)).
  unfold sparts_all. cbn [app run tag_part]. unfold rebuild' at 1. change (named (str "fLaC") MARK) with true. cbv iota. cbn [bind fst snd app]. rewrite rebuild_skips. rewrite app_nil_r. unfold stail. rewrite rebuild_blocks by exact Hb.
  rewrite (rebuild_last _ t data) by (try exact Hl; try exact Ht; cbn [get_track]; now rewrite N.eqb_refl). cbn [run bind fst]. unfold flac_sample, flac_file. rewrite <- pflat_pieces, pflat_cons. unfold stail. rewrite pflat_app. change (p_all MARK) with (bstr "fLaC").
  change (pflat [lpart last]) with (p_all (lpart last) ++ []). cbn [opt]. rewrite !app_nil_r, <- !app_assoc. reflexivity.
Qed.
Lemma rebuild_tagged ips blocks last tag a b fp srs (t : track) data : Forall own_block blocks -> last_block last -> Forall (fun p => p_ty p = Named (str "ID3")) ips -> reads srs (sparts_all ips blocks last tag a b fp) -> t_file t = Some data ->
  ips <> [] \/ tag <> None -> flac_rebuild [(1, t)] srs = Err TypeError.
Proof.
  intros Hb [Hl _] Hi R Ht Hor. unfold flac_rebuild. cbn [forallb snd]. rewrite Ht. cbn [andb]. rewrite (read_run _ (rebuild' [(1, t)]) _ _ _ R) by (intros; now apply rebuild_at with (post := post)).
  unfold sparts_all. destruct ips as [|p ips].
  - destruct Hor as [X|X]; [now destruct X|]. destruct tag as [tg|]; [|now destruct X]. cbn [app run tag_part]. unfold rebuild' at 1. change (named (str "fLaC") MARK) with true. cbv iota. cbn [bind fst snd app]. rewrite rebuild_skips. unfold stail. rewrite <- app_assoc. rewrite rebuild_blocks by exact Hb.
    cbn [app]. rewrite (rebuild_last _ t data) by (try exact Hl; try exact Ht; cbn [get_track]; now rewrite N.eqb_refl). reflexivity.
  - inversion Hi as [|? ? Hp _]; subst. cbn [app run]. unfold rebuild' at 1. unfold named. rewrite Hp. reflexivity.
Qed.

(** ** Restoring *)
Lemma tagged_nil blocks last frames : tagged_sample [] blocks last frames None = flac_sample blocks last frames. Proof. reflexivity. Qed.
Lemma sample_tagged blocks last frames : sample_ok blocks last frames -> tagged_ok [] blocks last frames None.
Proof. intros (H1 & H2 & H3). split; [constructor|]. auto. Qed.
Lemma nil_ids (ips : list fpart) : length ips = 0%nat -> ips = []. Proof. destruct ips; [reflexivity|discriminate]. Qed.
Lemma piece_nonempty p : piece p -> 0 < lenN p.
Proof. intros [|t (v & sz & body & -> & _)|ty d]; [reflexivity| |unfold meta; rewrite lenN_cons; lia]. rewrite lenN_app. change (lenN (bstr "ID3")) with 3. lia. Qed.
Lemma beqb_sig (frames : bytes) : starts [xff] frames -> beqb (takeN 256 frames) [] = false.
Proof. intros (r & ->). reflexivity. Qed.
Lemma crc_small d : crc32 d mod 2 ^ 32 = crc32 d. Proof. apply N.mod_small, crc32_lt. Qed.
(** up to the rebuilding, with a main file of the same audio *)
Lemma restore_until (d : file_data) (t : track) fp srs frames pieces tag : flac_load_srs srs = Ok (d, [(1, t)]) -> loaded frames fp t -> flac_ok pieces frames tag -> pieces <> [] ->
  exists t', t_file t' = Some frames /\ t_print t' = t_print t /\ flac_restore srs (flac_file pieces frames tag) =
    (do r <- flac_rebuild [(1, t')] srs; Ok (if crc32 (snd r) =? fd_crc32 d then Rebuilt (fst r) else Mismatch (fst r))).
Proof.
  intros HL (H1 & H2 & H3 & H4 & H5) Hok Hne. set (o := Z.of_N (lenN (concat pieces))).
  assert (Ho : (0 < o)%Z). { destruct pieces as [|p l]; [congruence|]. destruct Hok as (Hp & _). inversion Hp as [|? ? Q _]; subst. apply piece_nonempty in Q. unfold o. cbn [concat]. rewrite lenN_app. lia. }
  set (t1 := located t o (lenN frames)). exists (mkTrack (t_td t1) (t_offset t1) (t_match t1) (Some frames) (t_print t1)). split; [reflexivity|]. split; [reflexivity|].
  unfold flac_restore, srs_rebuild. rewrite HL. cbn [bind orb]. rewrite (find_flac pieces frames tag t Hok H1 H2). cbn [bind]. fold o. fold t1.
  cbn [existsb snd andb]. replace (not_located false t1) with false.
  2:{ unfold not_located. unfold t1. cbn [located t_td t_offset]. rewrite H2. assert (S : starts [xff] frames) by apply Hok. rewrite (beqb_sig _ S). cbn [negb andb]. replace (o =? 0)%Z with false by lia. replace (o =? -1)%Z with false by lia. reflexivity. }
  cbn [orb]. rewrite (extract_flac pieces frames tag t1 Hok). cbn [bind existsb snd]. unfold not_extracted at 1. cbn [t_td t_file]. unfold t1 at 1 2. cbn [located t_td]. rewrite H1. replace (lenN frames <? lenN frames) with false by lia. rewrite andb_false_r. reflexivity.
Qed.
Theorem flac_exact app name big offset fp blocks last frames srs pieces tag :
  sample_ok blocks last frames -> print_ok fp -> flac_srs app name big offset fp (flac_sample blocks last frames) = Ok srs ->
  flac_ok pieces frames tag -> pieces <> [] ->
  flac_restore srs (flac_file pieces frames tag) = Ok (Rebuilt (flac_sample blocks last frames)).
Proof.
  intros W Hfp H Hok Hne. rewrite <- tagged_nil in H. destruct (srs_parts _ _ _ _ _ _ _ _ _ _ _ (sample_tagged _ _ _ W) Hfp H) as (ips & a & b & fd & _ & P2 & Pl & _ & Ea & Ec & Eb & Es & R). apply nil_ids in Pl. subst ips.
  destruct W as (Hb & Hl & _). destruct (load_flac _ _ _ _ _ _ _ _ _ _ _ _ _ Hfp Hb Hl P2 Ea Eb R) as (d & t & HL & Hc & Hd). rewrite Ec, crc_small in Hc. rewrite tagged_nil in Hc.
  destruct (restore_until _ _ _ _ _ _ _ HL Hd Hok Hne) as (t' & Ht & _ & ->). rewrite (rebuild_flac _ _ _ _ _ _ _ _ Hb Hl R Ht). cbn [bind fst snd]. now rewrite Hc, N.eqb_refl.
Qed.
Theorem flac_tagged app name big offset fp ids blocks last frames tg srs pieces tag :
  tagged_ok ids blocks last frames tg -> print_ok fp -> flac_srs app name big offset fp (tagged_sample ids blocks last frames tg) = Ok srs ->
  ids <> [] \/ tg <> None -> flac_ok pieces frames tag -> pieces <> [] ->
  flac_restore srs (flac_file pieces frames tag) = Err TypeError.
Proof.
  intros W Hfp H Hor Hok Hne. destruct (srs_parts _ _ _ _ _ _ _ _ _ _ _ W Hfp H) as (ips & a & b & fd & _ & P2 & Pl & _ & Ea & Ec & Eb & Es & R). 
  destruct W as (Hi & Hb & Hl & _). destruct (load_flac _ _ _ _ _ _ _ _ _ _ _ _ _ Hfp Hb Hl P2 Ea Eb R) as (d & t & HL & Hc & Hd).
  destruct (restore_until _ _ _ _ _ _ _ HL Hd Hok Hne) as (t' & Ht & _ & ->). rewrite (rebuild_tagged _ _ _ _ _ _ _ _ _ _ Hb Hl P2 R Ht); [reflexivity|].
  destruct Hor as [X|X]; [left|right; exact X]. intros ->. apply X. destruct ids; [reflexivity|discriminate].
Qed.
(** ** Only the sample is accepted *)
Lemma loop_inv {S} (Inv : S -> Prop) (act : S -> fblock -> result (S * move)) f : (forall s b s' m, Inv s -> act s b = Ok (s', m) -> Inv s') ->
  forall fuel pos s s', Inv s -> flac_loop fuel act f pos s = Ok s' -> Inv s'.
Proof.
  intros Hi. induction fuel as [|fuel IH]; intros pos s s' I H; cbn [flac_loop] in H; [discriminate|]. bindinv H. destruct v as [b|]; [|apply ok_inj in H; now subst]. bindinv H. destruct v as [s1 m]. apply (Hi _ _ _ _ I) in E0. cbn [fst snd] in H.
  destruct m; [eapply IH; eauto|eapply IH; eauto|apply ok_inj in H; now subst].
Qed.
Theorem flac_sound app name big offset fp blocks last frames srs main out :
  sample_ok blocks last frames -> print_ok fp -> flac_srs app name big offset fp (flac_sample blocks last frames) = Ok srs ->
  flac_restore srs main = Ok (Rebuilt out) ->
  crc32 out = crc32 (flac_sample blocks last frames) /\ exists data, out = flac_sample blocks last data /\ lenN frames <= lenN data.
Proof.
  intros W Hfp H R0. rewrite <- tagged_nil in H. destruct (srs_parts _ _ _ _ _ _ _ _ _ _ _ (sample_tagged _ _ _ W) Hfp H) as (ips & a & b & fd & _ & P2 & Pl & _ & Ea & Ec & Eb & Es & R). apply nil_ids in Pl. subst ips.
  destruct W as (Hb & Hl & Hok). destruct (load_flac _ _ _ _ _ _ _ _ _ _ _ _ _ Hfp Hb Hl P2 Ea Eb R) as (d & t & HL & Hc & H1 & H2 & H3 & H4 & H5). rewrite Ec, crc_small, tagged_nil in Hc.
  unfold flac_restore, srs_rebuild in R0. rewrite HL in R0. cbn [bind orb] in R0. bindinv R0. rename v into ts.
  assert (T : exists t', ts = [(1, t')] /\ t_td t' = t_td t).
  { eapply (loop_inv (fun ts : tracks => exists t', ts = [(1, t')] /\ t_td t' = t_td t)); [|exists t; split; reflexivity|exact E].
    intros s bl s' m (t' & -> & T) Hs. unfold ffind_step in Hs. destruct (is_frame_data bl); [|injection Hs as <- _; eauto]. cbn [get_track] in Hs. rewrite N.eqb_refl in Hs. cbn [bind] in Hs. destruct (_ <? _)%Z in Hs; [discriminate|].
    destruct (beqb _ _) in Hs; injection Hs as <- _; [|eauto]. eexists. split; [reflexivity|]. exact T. }
  destruct T as (t' & -> & T). destruct (_ && _) in R0; [discriminate|]. bindinv R0. rename v into ts. rename E0 into X.
  assert (U : exists t', ts = [(1, t')] /\ t_td t' = t_td t).
  { eapply (loop_inv (fun ts : tracks => exists t', ts = [(1, t')] /\ t_td t' = t_td t)); [|exists t'; split; [reflexivity|exact T]|exact X].
    intros s bl s' m (t1 & -> & T1) Hs. unfold fextract_step in Hs. destruct (is_frame_data bl); [|injection Hs as <- _; eauto]. cbn [get_track] in Hs. rewrite N.eqb_refl in Hs. cbn [bind] in Hs. injection Hs as <- _. eexists. split; [reflexivity|]. exact T1. }
  destruct U as (t2 & -> & U). cbn [existsb snd orb] in R0. unfold not_extracted in R0. rewrite U, H1, H2 in R0. rewrite beqb_sig in R0 by apply Hok. cbn [negb andb] in R0.
  destruct (t_file t2) as [data|] eqn:Fd; [|discriminate]. destruct (N.ltb_spec (lenN data) (lenN frames)); [discriminate|]. cbn [orb] in R0. rewrite (rebuild_flac _ _ _ _ _ _ _ _ Hb Hl R Fd) in R0. cbn [bind fst snd] in R0.
  destruct (N.eqb_spec (crc32 (flac_sample blocks last data)) (fd_crc32 d)) as [C|C]; [|discriminate]. apply ok_inj in R0. injection R0 as <-. split; [now rewrite C, Hc|]. exists data. split; [reflexivity|lia].
Qed.
(** ** The fingerprint *)
Theorem flac_fingerprint app name big offset fp ids blocks last frames tg srs : tagged_ok ids blocks last frames tg -> print_ok fp -> (forall d t, fp = Some (d, t) -> d < 2 ^ 32) ->
  flac_srs app name big offset fp (tagged_sample ids blocks last frames tg) = Ok srs -> exists d t, flac_load_srs srs = Ok (d, [(1, t)]) /\ t_print t = fp.
Proof.
  intros W Hfp Hd H. destruct (srs_parts _ _ _ _ _ _ _ _ _ _ _ W Hfp H) as (ips & a & b & fd & _ & P2 & Pl & _ & Ea & Ec & Eb & Es & R). 
  destruct W as (Hi & Hb & Hl & _). destruct (load_flac _ _ _ _ _ _ _ _ _ _ _ _ _ Hfp Hb Hl P2 Ea Eb R) as (d & t & HL & Hc & (_ & _ & _ & _ & Hu)). exists d, t. split; [exact HL|]. rewrite Hu.
  destruct fp as [[du s]|]; [|reflexivity]. unfold uparts. replace (du <? 2 ^ 32) with true; [reflexivity|]. symmetry. apply N.ltb_lt. exact (Hd _ _ eq_refl).
Qed.
(** ** What can be created *)
Lemma uparts_size fp n : fprint_size fp n -> lenN (pflat (uparts fp)) = n.
Proof.
  destruct fp as [[d t]|]; cbn [fprint_size]; [|intros ->; reflexivity]. intros [H1 H2]. unfold uparts. destruct (N.ltb_spec d (2 ^ 32)) as [X|X]; [|rewrite H2 by exact X; reflexivity]. rewrite H1 by exact X.
  unfold pflat. cbn [map concat]. rewrite app_nil_r. unfold p_all, mpart, p_hd, p_dt. cbn [fst snd]. rewrite lenN_app, lenN_cons, lenN_be, !lenN_app, !lenN_le. change (N.of_nat 3) with 3. change (N.of_nat 4) with 4. lia.
Qed.
Lemma lenN_mpart ty d : lenN (p_all (mpart ty d)) = 4 + lenN d.
Proof. unfold p_all, mpart, p_hd, p_dt. cbn [fst snd]. rewrite lenN_app, lenN_cons, lenN_be. change (N.of_nat 3) with 3. lia. Qed.
Theorem flac_creates app name base (big : bool) offset fp ps ids blocks last frames tg a n : print_ok fp -> fprint_size fp ps -> tagged_ok ids blocks last frames tg -> utf8_enc app = Some a -> lenN a < 2 ^ 16 ->
  after_slash name base -> utf8_enc base = Some n -> lenN n < 2 ^ 16 ->
  lenN frames < (if big then 2 ^ 64 else 2 ^ 32) -> lenN (tagged_sample ids blocks last frames tg) < 2 ^ 64 -> offset < 2 ^ 64 ->
  exists srs, flac_srs app name big offset fp (tagged_sample ids blocks last frames tg) = Ok srs /\
  lenN srs = lenN (tagged_sample ids blocks last (takeN 256 frames) tg) + 44 + lenN a + lenN n + (if big then 4 else 0) + ps.
Proof.
  intros Hfp Hps W Ha La Hn En Ln Hlen L64 Ho. rewrite <- (uparts_size _ _ Hps). clear Hps. destruct (tagged_split _ _ _ _ _ W) as (ips & P1 & P2 & P4 & E & R). 
  assert (E2 : concat ids ++ concat (sample_pieces blocks last) = pflat (ips ++ MARK :: stail blocks last)).
  { unfold tagged_sample, flac_file in E. rewrite concat_app in E. apply app_inv_tail in E. exact E. }
  destruct W as (Hi & Hb & Hl & Hp & Hs & L & Ht).
  assert (Ht' : match tg with Some t => id3v1 t | None => True end) by (destruct tg; [exact Ht|exact I]).
  assert (PP : Forall ppart (ips ++ MARK :: stail blocks last)) by (apply Forall_app; split; [exact P1|]; constructor; [constructor|now apply stail_ok]).
  unfold flac_srs. rewrite E in R, L64. rewrite E. rewrite (profile_flac name _ frames tg PP Ht' R). cbn [bind fst snd]. set (fd := {| fd_flags := NEW_FLAGS |}). set (t := with_stored big offset _).
  rewrite (read_run _ (create' app fd t fp) _ _ _ R) by (intros; now apply create_at with (post := post)).
  rewrite <- app_assoc. rewrite create_plain; [|eapply Forall_impl; [apply ppart_plain|exact P1]|eapply Forall_impl; [|exact P2]; intros p Ep; rewrite Ep; discriminate].
  cbn [Datatypes.app]. rewrite create_mark. rewrite (file_accepts app fd base a n Ha La Hn En Ln eq_refl L64). cbn [bind].
  destruct (track_accepts t) as (b & Eb & Lb).
  - destruct big; reflexivity.
  - reflexivity.
  - destruct big; exact Hlen.
  - exact Ho.
  - cbn [t with_stored td_signature sig_track]. rewrite lenN_takeN. change (2 ^ 16) with 65536. lia.
  - assert (Lf : lenN (file_layout (fd_flags fd) a n (fd_size fd) (fd_crc32 fd mod 2 ^ 32)) = 18 + lenN a + lenN n).
    { unfold file_layout. rewrite !lenN_app, !lenN_le. change (N.of_nat 4) with 4. change (N.of_nat 2) with 2. change (N.of_nat 8) with 8. lia. }
    change x73 with (n2b 115). rewrite flac_block_ok; [|reflexivity|rewrite Lf; change (2 ^ 16) with 65536 in *; change (2 ^ 32) with 4294967296; lia]. cbn [bind]. rewrite Eb. cbn [bind].
    pose proof (track_small _ _ Eb) as Lb'. change x74 with (n2b 116). rewrite flac_block_ok; [|reflexivity|change (2 ^ 24) with 16777216 in Lb'; change (2 ^ 32) with 4294967296; lia]. cbn [bind].
    rewrite create_plain; [|eapply Forall_impl; [apply ppart_plain|now apply stail_ok]|apply stail_named]. rewrite create_frames.
    rewrite <- (app_nil_r (tag_part tg)). rewrite create_plain; [|now apply tag_plain|destruct tg; [constructor; [discriminate|constructor]|constructor]]. cbn [run]. eexists. split; [reflexivity|].
    unfold tagged_sample, flac_file. rewrite concat_app, E2. rewrite (pflat_app ips), pflat_cons. rewrite (uparts_all _ Hfp), pflat_tag. change (p_all MARK) with (bstr "fLaC"). repeat rewrite ?lenN_app, ?lenN_mpart. rewrite Lf, Lb. cbn [t with_stored td_signature td_number td_flags sig_track].
    change (2 ^ 16 <=? 1) with false. change (lenN []) with 0. replace (has (if big then N.lor 0 BIG_FILE else 0) 4) with big by (destruct big; reflexivity). destruct big; lia.
Qed.

(** ** Reading ends *)
Lemma unpack_be_fuel k b o : unpack_be k b o <> Err OutOfFuel.
Proof. unfold unpack_be. now destruct (_ =? _). Qed.
Lemma next_fuel f pos : flac_next f pos <> Err OutOfFuel.
Proof.
  unfold flac_next. destruct (_ =? _); [discriminate|]. destruct (beqb _ _); [discriminate|]. destruct (beqb _ _); [apply bind_fuel; [apply decode_fuel|discriminate]|]. destruct (beqb _ _); [discriminate|].
  destruct (sub pos 4 f) as [|t r]; [discriminate|]. apply bind_fuel.
  - destruct (_ =? _); [destruct (_ <? _); discriminate|]. apply bind_fuel; [apply unpack_be_fuel|discriminate].
  - intros b. destruct (_ <? _)%Z; discriminate.
Qed.
(** what a step does: it is at the end, past the end, or moves on; but it may move back to the tag once *)
Definition back (f : bytes) (pos : N) : Prop := 128 <= lenN f /\ pos = lenN f - 128 /\ sub pos 3 f = bstr "TAG".
Lemma sub_len_bound n (f : bytes) pos b : sub pos n f = b -> b <> [] -> pos + lenN b <= lenN f.
Proof. intros <- H. rewrite lenN_sub. assert (lenN (sub pos n f) <> 0) by (destruct (sub pos n f); [congruence|rewrite lenN_cons; lia]). rewrite lenN_sub in H0. lia. Qed.
Lemma take_sub n m (f : bytes) pos : n <= m -> takeN n (sub pos m f) = sub pos n f.
Proof. intros H. unfold sub. rewrite takeN_takeN. now replace (N.min n m) with n by lia. Qed.
Lemma next_moves f pos b : flac_next f pos = Ok (Some b) -> f_start b = pos /\ pos < lenN f /\
  ((pos < Z.to_N (Z.of_N (f_data b) + f_size b)) \/ (back f (Z.to_N (Z.of_N (f_data b) + f_size b)))) /\
  pos < f_data b + lenN (f_contents f b) /\
  (back f pos -> Z.to_N (Z.of_N (f_data b) + f_size b) = lenN f /\ f_data b + lenN (f_contents f b) = lenN f).
Proof.
  unfold flac_next. destruct (_ =? _); [discriminate|]. destruct (beqb (sub pos 4 f) _) eqn:E1.
  { apply beqb_eq in E1. intros [= <-]. pose proof (sub_len_bound _ _ _ _ E1 ltac:(discriminate)) as L. change (lenN (bstr "fLaC")) with 4 in L. unfold f_data. cbn [f_start f_header f_size]. rewrite E1. change (lenN (bstr "fLaC")) with 4.
    split; [reflexivity|]. split; [lia|]. split; [left; lia|]. split; [lia|]. intros (B1 & B2 & B3). rewrite <- (take_sub 3 4) in B3 by lia. rewrite E1 in B3. discriminate. }
  destruct (beqb (takeN 3 _) (bstr "ID3")) eqn:E2.
  { apply beqb_eq in E2. rewrite take_sub in E2 by lia. intros H. bindinv H. apply ok_inj in H. injection H as <-. pose proof (sub_len_bound _ _ _ _ E2 ltac:(discriminate)) as L. change (lenN (bstr "ID3")) with 3 in L. unfold f_data. cbn [f_start f_header f_size]. rewrite lenN_sub.
    split; [reflexivity|]. split; [lia|]. split; [left; lia|]. split; [lia|]. intros (B1 & B2 & B3). rewrite E2 in B3. discriminate. }
  destruct (beqb (takeN 3 _) (bstr "TAG")) eqn:E3.
  { apply beqb_eq in E3. rewrite take_sub in E3 by lia. intros [= <-]. pose proof (sub_len_bound _ _ _ _ E3 ltac:(discriminate)) as L. change (lenN (bstr "TAG")) with 3 in L. unfold f_contents, f_data, read_at. cbn [f_start f_header f_size]. change (lenN []) with 0. change (128 <? 0)%Z with false. cbv iota. rewrite lenN_sub. change (Z.to_N 128) with 128.
    split; [reflexivity|]. split; [lia|]. split; [left; lia|]. split; [lia|]. intros (B1 & B2 & B3). lia. }
  destruct (sub pos 4 f) as [|t r] eqn:E4; [discriminate|]. intros H. bindinv H. destruct (Z.ltb_spec (Z.of_N (lenN f)) (Z.of_N pos + f_size v)) in H; [discriminate|]. apply ok_inj in H. injection H as <-.
  assert (Bk : ~ back f pos). { intros (B1 & B2 & B3). rewrite <- (take_sub 3 4) in B3 by lia. rewrite E4 in B3. rewrite B3 in E3. discriminate. }
  pose proof (sub_len_bound _ _ _ _ E4 ltac:(discriminate)) as L. rewrite lenN_cons in L.
  destruct (_ =? _) in E.
  - destruct (N.ltb_spec (lenN f) 128) as [X|X] in E; [discriminate|]. apply ok_inj in E. subst v. unfold f_contents, f_data, read_at in *. cbn [f_start f_header f_size] in *. change (lenN []) with 0 in *.
    split; [reflexivity|]. split; [lia|]. destruct (beqb (sub (lenN f - 128) 3 f) (bstr "TAG")) eqn:E5.
    + apply beqb_eq in E5. split; [|split; [|intros B; now destruct (Bk B)]].
      * destruct (N.lt_ge_cases pos (lenN f - 128)); [left; lia|]. right. split; [lia|]. split; [lia|]. replace (Z.to_N _) with (lenN f - 128) by lia. exact E5.
      * destruct (Z.ltb_spec (Z.of_N (lenN f) - Z.of_N pos - 128) 0); [unfold sub; rewrite ?lenN_takeN, ?lenN_dropN; try lia|]. rewrite lenN_sub. assert (pos <> lenN f - 128) by (intros Y; apply Bk; split; [lia|]; split; [exact Y|]; rewrite Y; exact E5). lia.
    + split; [left; lia|]. split; [|intros B; now destruct (Bk B)]. replace (_ <? 0)%Z with false by lia. rewrite lenN_sub. lia.
  - bindinv E. apply ok_inj in E. subst v. unfold f_contents, f_data, read_at in *. cbn [f_start f_header f_size] in *. rewrite lenN_cons.
    split; [reflexivity|]. split; [lia|]. split; [left; lia|]. split; [lia|intros B; now destruct (Bk B)].
Qed.
Lemma next_past f pos : lenN f < pos -> exists e, flac_next f pos = Err e.
Proof.
  intros H. unfold flac_next. replace (pos =? lenN f) with false by lia. assert (E : sub pos 4 f = []) by (destruct (sub pos 4 f) eqn:E; [reflexivity|]; apply sub_len_bound in E; [rewrite lenN_cons in E; lia|discriminate]). rewrite E. cbn. eauto.
Qed.
Section Ends.
Context {S : Type} (act : S -> fblock -> result (S * move)) (f : bytes) (Ha : forall s b, act s b <> Err OutOfFuel).
Lemma loop_past fuel pos s : lenN f <= pos -> flac_loop (Datatypes.S fuel) act f pos s <> Err OutOfFuel.
Proof.
  intros H. cbn [flac_loop]. destruct (N.eq_dec pos (lenN f)) as [-> |Hne]; [unfold flac_next; rewrite N.eqb_refl; discriminate|]. destruct (next_past f pos ltac:(lia)) as (e & E). pose proof (next_fuel f pos) as X. rewrite E in *. cbn [bind]. congruence.
Qed.
Lemma loop_back fuel pos s : back f pos -> flac_loop (Datatypes.S (Datatypes.S fuel)) act f pos s <> Err OutOfFuel.
Proof.
  intros H. cbn [flac_loop]. pose proof (next_fuel f pos) as X. destruct (flac_next f pos) as [[b|]|e] eqn:E; cbn [bind]; [|discriminate|congruence]. apply next_moves in E as (_ & _ & _ & _ & E). destruct (E H) as [E1 E2]. rewrite E1, E2.
  apply bind_fuel; [apply Ha|]. intros [s' m]. cbn [fst snd]. destruct m; [apply (loop_past fuel); lia|apply (loop_past fuel); lia|discriminate].
Qed.
Lemma loop_ends fuel : forall pos s, (N.to_nat (lenN f - pos) + 3 <= fuel)%nat -> flac_loop fuel act f pos s <> Err OutOfFuel.
Proof.
  induction fuel as [|fuel IH]; intros pos s L; [lia|]. destruct (N.le_gt_cases (lenN f) pos); [now apply loop_past|].
  cbn [flac_loop]. pose proof (next_fuel f pos) as X. destruct (flac_next f pos) as [[b|]|e] eqn:E; cbn [bind]; [|discriminate|congruence]. apply next_moves in E as (_ & _ & M1 & M2 & _).
  apply bind_fuel; [apply Ha|]. intros [s' m]. cbn [fst snd]. destruct m; [|apply IH; lia|discriminate]. destruct M1 as [M1|M1]; [apply IH; lia|]. destruct fuel as [|[|fuel]]; [lia|lia|]. now apply loop_back.
Qed.
Theorem flac_reader_ends s : flac_read act f s <> Err OutOfFuel.
Proof. unfold flac_read. apply loop_ends. rewrite lenN_length. lia. Qed.
End Ends.

(** ** Examples *)
Definition x_blocks : list (N * bytes) := [(0, repN 34 x10); (4, bstr "vendor")].
Definition x_last : N * bytes := (1, repN 8 x00).
Definition x_frames : bytes := [xff; xf8] ++ repN 100 x61 ++ bstr "end".
Definition x_pieces : list bytes := m_front ++ [bstr "fLaC"; meta 0 (repN 34 x11); meta 132 (bstr "other")].
Definition x_name : text := str "/tmp/a.flac".
Definition x_print : option (N * bytes) := Some (215, bstr "AQAAfingerprint").
Lemma x_sample : sample_ok x_blocks x_last x_frames.
Proof.
  assert (B : Forall own_block x_blocks) by (constructor; [|constructor; [|constructor]]; (split; [split; [reflexivity|cbn [fst In]; lia]|reflexivity])).
  assert (L : last_block x_last) by (split; reflexivity).
  split; [exact B|]. split; [exact L|]. split; [|split; [exists ([xf8] ++ repN 100 x61 ++ bstr "end"); reflexivity|split; [vm_compute; discriminate|nope]]].
  constructor; [constructor|]. constructor; [constructor; [reflexivity|cbn [fst In]; lia|reflexivity]|]. constructor; [constructor; [reflexivity|cbn [fst In]; lia|reflexivity]|]. constructor; [constructor; [reflexivity|cbn [fst In]; lia|reflexivity]|constructor].
Qed.
Lemma x_main : flac_ok x_pieces x_frames (Some m_tag).
Proof.
  split; [|split; [exists ([xf8] ++ repN 100 x61 ++ bstr "end"); reflexivity|split; [vm_compute; discriminate|exact tag_ok]]].
  apply Forall_app. split; [eapply Forall_impl; [|exact m_id3]; intros t Ht; now constructor|].
  constructor; [constructor|]. constructor; [constructor; [reflexivity|cbn [In]; lia|reflexivity]|]. constructor; [constructor; [reflexivity|cbn [In]; lia|reflexivity]|constructor].
Qed.
Lemma x_tagged : tagged_ok m_front x_blocks x_last x_frames (Some m_tag).
Proof.
  destruct x_sample as (B & L & P & S & _). split; [exact m_id3|]. split; [exact B|]. split; [exact L|]. split; [|split; [exact S|split; [vm_compute; discriminate|exact tag_ok]]].
  apply Forall_app. split; [eapply Forall_impl; [|exact m_id3]; intros t Ht; now constructor|exact P].
Qed.
Lemma x_name_ok : after_slash x_name (str "a.flac").
Proof. split; [|right; exists (str "/tmp"); reflexivity]. cbn. intros H. repeat destruct H as [H|H]; try discriminate. contradiction. Qed.
Lemma x_creates ids tag : tagged_ok ids x_blocks x_last x_frames tag -> lenN (tagged_sample ids x_blocks x_last x_frames tag) < 2 ^ 64 -> exists srs, flac_srs m_app x_name false 0 x_print (tagged_sample ids x_blocks x_last x_frames tag) = Ok srs /\
  lenN srs = lenN (tagged_sample ids x_blocks x_last x_frames tag) + 44 + 14 + 6 + 27.
Proof.
  intros H L. destruct (flac_creates m_app x_name (str "a.flac") false 0 x_print 27 ids x_blocks x_last x_frames tag (bstr "pyReSample 0.7") (bstr "a.flac")) as (srs & E & Ls); try reflexivity; auto.
  - split; [reflexivity|]. intros X. exfalso. vm_compute in X. now apply X.
  - exact x_name_ok.
  - exists srs. split; [exact E|]. rewrite Ls. change (takeN 256 x_frames) with x_frames. change (lenN (bstr "pyReSample 0.7")) with 14. change (lenN (bstr "a.flac")) with 6. lia.
Qed.
Lemma ex_flac : sample_ok x_blocks x_last x_frames /\ print_ok x_print /\ flac_ok x_pieces x_frames (Some m_tag) /\ x_pieces <> [] /\
  exists srs, flac_srs m_app x_name false 0 x_print (flac_sample x_blocks x_last x_frames) = Ok srs.
Proof.
  split; [exact x_sample|]. split; [reflexivity|]. split; [exact x_main|]. split; [discriminate|]. destruct (x_creates [] None) as (srs & H & _); [apply sample_tagged, x_sample|reflexivity|]. exists srs. exact H.
Qed.
Lemma ex_flac_created : exists srs, flac_srs m_app x_name false 0 x_print (flac_sample x_blocks x_last x_frames) = Ok srs /\ lenN srs = lenN (flac_sample x_blocks x_last x_frames) + 91.
Proof. destruct (x_creates [] None) as (srs & H & L); [apply sample_tagged, x_sample|reflexivity|]. exists srs. split; [exact H|]. rewrite L. reflexivity. Qed.
Theorem flac_tagged_witness : exists ids blocks last frames tag, tagged_ok ids blocks last frames tag /\ exists srs, flac_srs m_app x_name false 0 x_print (tagged_sample ids blocks last frames tag) = Ok srs /\
  flac_restore srs (tagged_sample ids blocks last frames tag) = Err TypeError.
Proof.
  exists m_front, x_blocks, x_last, x_frames, (Some m_tag). split; [exact x_tagged|]. destruct (x_creates m_front (Some m_tag)) as (srs & H & _); [exact x_tagged|reflexivity|]. exists srs. split; [exact H|].
  unfold tagged_sample at 1. apply (flac_tagged m_app x_name false 0 x_print m_front x_blocks x_last x_frames (Some m_tag) srs); [exact x_tagged|reflexivity|exact H|left; discriminate|apply x_tagged|discriminate].
Qed.
Lemma ex_tagged_flac : tagged_ok m_front x_blocks x_last x_frames (Some m_tag) /\ m_front <> [] /\ exists srs, flac_srs m_app x_name false 0 x_print (tagged_sample m_front x_blocks x_last x_frames (Some m_tag)) = Ok srs.
Proof. split; [exact x_tagged|]. split; [discriminate|]. destruct (x_creates m_front (Some m_tag)) as (srs & H & _); [exact x_tagged|reflexivity|]. now exists srs. Qed.
(** noting the blocks *)
Definition note (s : list fblock) (b : fblock) : result (list fblock * move) := Ok (s ++ [b], Skip).
Lemma ex_prints : (forall d s, m_print = Some (d, s) -> d < 2 ^ 32 /\ lenN s + 16 < 2 ^ 32) /\ (forall d t, x_print = Some (d, t) -> d < 2 ^ 32) /\
  (exists srs, mp3_srs digits_int m_app m_name false 0 m_print (mp3_file m_front m_audio m_tl) = Ok srs /\ (forall mid, srs = mp3_file m_front mid m_tl -> fits (concat m_front ++ mid) m_tl)).
Proof.
  split; [intros d s [= <- <-]; split; vm_compute; reflexivity|]. split; [intros d t [= <- <-]; vm_compute; reflexivity|].
  destruct ex_mp3 as (_ & _ & _ & _ & _ & _ & _ & _ & H). exact (H m_print (or_intror eq_refl)).
Qed.
