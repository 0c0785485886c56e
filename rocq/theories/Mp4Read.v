(** Mp4Read: proofs about reading the boxes of MP4 files. *)
From Verif Require Import Base BaseFacts Crc CrcFacts SrsRec Srs SrrFacts Mp4 StrmSpec Mp3Spec Mp4Spec Mp4Tables.
From Coq Require Import Permutation.

(** ** One header *)
Lemma unpack_be_0 k n c : n < 2 ^ (8 * N.of_nat k) -> unpack_be k (be k n ++ c) 0 = Ok n.
Proof. exact (unpack_be_at k [] n c 0 eq_refl). Qed.
Lemma header_len ty n h : lenN ty = 4 -> header ty n h -> lenN h <= n /\ 8 <= lenN h.
Proof. intros L [m H1 H2|m H1 H2|E]; [| |now vm_compute]; rewrite ?lenN_app, ?lenN_be, ?L; change (N.of_nat 4) with 4; change (N.of_nat 8) with 8; lia. Qed.
Lemma next_header check (f pre : bytes) ty n h rest : lenN ty = 4 -> header ty n h -> f = pre ++ h ++ rest ->
  (check = true -> beqb ty (bstr "mdat") = false -> lenN pre + n <= lenN f) ->
  mov_next check f (lenN pre) = Ok (Some (mkAtom ty n h (lenN pre))).
Proof.
  intros L H -> C. pose proof (header_len ty n h L H) as (_ & H8).
  assert (Fin : forall h', h' = h -> (if check && negb (beqb ty (bstr "mdat")) && (lenN (pre ++ h ++ rest) <? lenN pre + n) then Err ValueError else Ok (Some (mkAtom ty n h' (lenN pre)))) = Ok (Some (mkAtom ty n h (lenN pre)))).
  { intros h' ->. destruct check; [|reflexivity]. destruct (beqb ty (bstr "mdat")) eqn:B; [reflexivity|]. cbn [andb negb]. specialize (C eq_refl eq_refl).
    match goal with |- (if ?c then _ else _) = _ => replace c with false by lia end. reflexivity. }
  unfold mov_next. match goal with |- context [if ?a <? ?b then _ else _] => replace (a <? b) with false by (rewrite !lenN_app; lia) end.
  destruct H as [m H1 H2|m H1 H2|E].
  - rewrite <- app_assoc. replace (sub (lenN pre) 8 (pre ++ be 4 m ++ ty ++ rest)) with (be 4 m ++ ty).
    2:{ rewrite (app_assoc (be 4 m)). symmetry. apply sub_app_exact; [reflexivity|]. rewrite lenN_app, lenN_be, L. reflexivity. }
    cbv zeta. rewrite (dropN_app_exact (be 4 m)) by (now rewrite lenN_be).
    rewrite unpack_be_0 by exact H2. cbn [bind]. replace (m =? 1) with false by lia. replace (m =? 0) with false by lia. cbn [bind fst snd].
    rewrite <- (app_assoc (be 4 m)) in Fin. now apply Fin.
  - rewrite <- !app_assoc. replace (sub (lenN pre) 8 (pre ++ be 4 1 ++ ty ++ be 8 m ++ rest)) with (be 4 1 ++ ty).
    2:{ rewrite (app_assoc (be 4 1)). symmetry. apply sub_app_exact; [reflexivity|]. rewrite lenN_app, lenN_be, L. reflexivity. }
    cbv zeta. rewrite (dropN_app_exact (be 4 1)) by (now rewrite lenN_be).
    rewrite unpack_be_0 by reflexivity. cbn [bind]. change (1 =? 1) with true. cbv iota.
    replace (sub (lenN pre + 8) 8 (pre ++ be 4 1 ++ ty ++ be 8 m ++ rest)) with (be 8 m).
    2:{ rewrite (app_assoc (be 4 1)), (app_assoc pre). symmetry. apply sub_app_exact; rewrite ?lenN_app, ?lenN_be, ?L; reflexivity. }
    rewrite lenN_be. change (N.of_nat 8 =? 8) with true. cbv iota. pose proof (unpack_be_0 8 m [] H2) as U. rewrite app_nil_r in U. rewrite U.
    cbn [bind fst snd]. rewrite <- !(app_assoc (be 4 1)), <- (app_assoc ty) in Fin. apply Fin. now rewrite <- app_assoc.
  - replace (sub (lenN pre) 8 (pre ++ repN 8 x00 ++ rest)) with (repN 8 x00) by (symmetry; now apply sub_app_exact).
    subst ty. cbv zeta. change (dropN 4 (repN 8 x00)) with (repN 4 x00). change (unpack_be 4 (repN 8 x00) 0) with (@Ok N 0). cbn [bind].
    change (0 =? 1) with false. change (0 =? 0) with true. cbv iota. change (beqb (repN 4 x00) [x00; x00; x00; x00]) with true. cbv iota. cbn [bind fst snd]. now apply Fin.
Qed.
(** a box mdat up to the end of the file *)
Lemma next_open check (f pre d : bytes) : f = pre ++ (repN 4 x00 ++ bstr "mdat") ++ d ->
  mov_next check f (lenN pre) = Ok (Some (mkAtom (bstr "mdat") (8 + lenN d) (repN 4 x00 ++ bstr "mdat") (lenN pre))).
Proof.
  intros ->. unfold mov_next. match goal with |- context [if ?a <? ?b then _ else _] => replace (a <? b) with false by (rewrite !lenN_app; change (lenN (repN 4 x00)) with 4; change (lenN (bstr "mdat")) with 4; lia) end.
  rewrite (sub_app_exact pre (repN 4 x00 ++ bstr "mdat") d) by reflexivity. cbv zeta. change (dropN 4 (repN 4 x00 ++ bstr "mdat")) with (bstr "mdat").
  change (unpack_be 4 (repN 4 x00 ++ bstr "mdat") 0) with (@Ok N 0). cbn [bind]. change (0 =? 1) with false. change (0 =? 0) with true. cbv iota.
  change (beqb (bstr "mdat") [x00; x00; x00; x00]) with false. cbv iota. cbn [bind fst snd]. change (beqb (bstr "mdat") (bstr "mdat")) with true.
  rewrite andb_false_r. cbn [andb]. do 3 f_equal. rewrite !lenN_app. change (lenN (repN 4 x00)) with 4. change (lenN (bstr "mdat")) with 4. lia.
Qed.
Lemma next_end check (f : bytes) : mov_next check f (lenN f) = Ok None.
Proof. unfold mov_next. match goal with |- context [if ?a <? ?b then _ else _] => replace (a <? b) with true by lia end. reflexivity. Qed.

(** ** What is read of a file *)
(** the type, the size, the header, the contents; or a header and then what is inside *)
Record part := mkPart { q_ty : bytes; q_size : N; q_head : bytes; q_data : bytes; q_enter : bool }.
Definition q_all (p : part) : bytes := q_head p ++ q_data p.
Definition pflat (ps : list part) : bytes := concat (map q_all ps).
Definition q_atom (pos : N) (p : part) : atom := mkAtom (q_ty p) (q_size p) (q_head p) pos.
Fixpoint reads (check : bool) (f : bytes) (pos : N) (ps : list part) : Prop :=
  match ps with
  | [] => True
  | p :: ps =>
    mov_next check f pos = Ok (Some (q_atom pos p)) /\ (q_enter p = false -> q_size p = lenN (q_all p)) /\ (q_enter p = true -> q_data p = []) /\
    sub (pos + lenN (q_head p)) (lenN (q_data p)) f = q_data p /\ 8 <= lenN (q_head p) /\ reads check f (pos + lenN (q_all p)) ps
  end.
Lemma pflat_cons p ps : pflat (p :: ps) = q_all p ++ pflat ps. Proof. reflexivity. Qed.
Lemma pflat_app a b : pflat (a ++ b) = pflat a ++ pflat b. Proof. unfold pflat. now rewrite map_app, concat_app. Qed.
Lemma reads_app check f ps : forall pos qs, reads check f pos (ps ++ qs) <-> reads check f pos ps /\ reads check f (pos + lenN (pflat ps)) qs.
Proof.
  induction ps as [|p ps IH]; intros pos qs.
  - cbn. change (lenN []) with 0. rewrite N.add_0_r. tauto.
  - cbn [Datatypes.app reads]. rewrite pflat_cons, lenN_app, IH, N.add_assoc. tauto.
Qed.
Lemma read_contents check f pos p ps : reads check f pos (p :: ps) -> q_enter p = false -> a_contents f (q_atom pos p) = q_data p.
Proof.
  intros (_ & S & _ & D & _) E. unfold a_contents, a_data, read_at, q_atom. cbn [a_size a_header a_start]. rewrite (S E). unfold q_all. rewrite lenN_app.
  replace (_ <? 0)%Z with false by lia. etransitivity; [|exact D]. f_equal. lia.
Qed.
Definition move_ok (p : part) (m : move) : Prop := if q_enter p then m = Child else m <> Child.
Section Run.
Context {S : Type} (check : bool) (act : S -> atom -> result (S * move)) (act' : S -> part -> result S) (f : bytes).
Definition acts (ps : list part) : Prop := forall p pos s, In p ps -> (q_enter p = false -> a_contents f (q_atom pos p) = q_data p) ->
  exists m, move_ok p m /\ act s (q_atom pos p) = (do s' <- act' s p; Ok (s', m)).
Lemma loop_run ps : forall pos s fuel, reads check f pos ps -> acts ps ->
  mov_loop (length ps + fuel) check act f pos s = do s' <- foldR act' ps s; mov_loop fuel check act f (pos + lenN (pflat ps)) s'.
Proof.
  induction ps as [|p ps IH]; intros pos s fuel H A.
  - cbn. change (lenN []) with 0. now rewrite N.add_0_r.
  - pose proof (fun E => read_contents check f pos p ps H E) as Rc. destruct H as (Nx & Sz & En & Sb & _ & H). cbn [length Nat.add mov_loop foldR]. rewrite Nx. cbn [bind].
    destruct (A p pos s (or_introl eq_refl) Rc) as (m & Mo & ->).
    destruct (act' s p) as [s'|e]; [|reflexivity]. cbn [bind fst snd].
    assert (A' : acts ps) by (intros q po t Hq; apply A; now right).
    rewrite pflat_cons, lenN_app, N.add_assoc.
    replace (match m with Child => _ | Skip => _ | ReadOn => _ end) with (mov_loop (length ps + fuel) check act f (pos + lenN (q_all p)) s'); [now apply IH|].
    unfold move_ok in Mo. destruct (q_enter p) eqn:E.
    + subst m. f_equal. unfold a_data, q_atom, q_all. cbn [a_start a_header]. rewrite (En eq_refl), lenN_app. change (lenN []) with 0. lia.
    + destruct m; [now destruct Mo| |]; f_equal.
      * unfold q_atom. cbn [a_start a_size]. now rewrite (Sz eq_refl).
      * rewrite (Rc eq_refl). unfold a_data, q_atom, q_all. cbn [a_start a_header]. rewrite lenN_app. lia.
Qed.
Lemma reads_length ps : forall pos, reads check f pos ps -> (length ps <= length (pflat ps))%nat.
Proof.
  induction ps as [|p ps IH]; intros pos H; [reflexivity|]. destruct H as (_ & _ & _ & _ & L & H). apply IH in H. cbn [length]. rewrite pflat_cons, app_length. unfold q_all. rewrite app_length.
  rewrite lenN_length in L. lia.
Qed.
Lemma read_run ps s : reads check f 0 ps -> pflat ps = f -> acts ps -> mov_read check act f s = foldR act' ps s.
Proof.
  intros H E A. unfold mov_read. pose proof (reads_length ps 0 H) as L. rewrite E in L.
  replace (1 + length f)%nat with (length ps + (1 + (length f - length ps)))%nat by lia. rewrite loop_run by assumption.
  destruct (foldR act' ps s) as [s'|e]; [|reflexivity]. cbn [bind]. rewrite N.add_0_l, E. cbn [Nat.add mov_loop]. rewrite next_end. reflexivity.
Qed.
End Run.

(** ** The parts of boxes *)
Definition is_mdat (p : part) : bool := beqb (q_ty p) (bstr "mdat").
(** [flat_part]: seen by a reader that goes into the containers *)
Definition flat_part (movie : bool) (p : part) : Prop :=
  if q_enter p then In (q_ty p) containers
  else ~ In (q_ty p) containers /\ ~ In (q_ty p) [bstr "SRSF"; bstr "SRST"] /\ (movie = false -> is_mdat p = false).
Definition items (ps : list part) : list (bytes * bytes) := map (fun p => (q_ty p, q_data p)) (filter (fun p => negb (q_enter p) && negb (is_mdat p)) ps).
Lemma items_app a b : items (a ++ b) = items a ++ items b. Proof. unfold items. now rewrite filter_app, map_app. Qed.
Lemma containers_len ty : In ty containers -> lenN ty = 4.
Proof. cbn [In containers]. intros [<-|[<-|[<-|[<-|[<-|[]]]]]]; reflexivity. Qed.
Lemma not_mdat (p : part) l : ~ In (q_ty p) l -> In (bstr "mdat") l -> is_mdat p = false.
Proof. intros H I. unfold is_mdat. destruct (beqb _ _) eqn:E; [|reflexivity]. apply beqb_eq in E. rewrite <- E in I. contradiction. Qed.
Lemma container_not_mdat ty : In ty containers -> beqb ty (bstr "mdat") = false.
Proof. cbn [In containers]. intros [<-|[<-|[<-|[<-|[<-|[]]]]]]; reflexivity. Qed.
Lemma boxes_flat movie its b : boxes movie its b -> exists ps, pflat ps = b /\ items ps = its /\ Forall (flat_part movie) ps /\
  forall check (f pre post : bytes), f = pre ++ b ++ post -> reads check f (lenN pre) ps.
Proof.
  induction 1 as [|ty h d its bs Lt Ni Hh Hb IH|ty h its b its' bs Ic Hh Hb IH Hb' IH'|h d its bs Em Hh Hb IH].
  - exists []. repeat split; constructor.
  - destruct IH as (ps & E & Ei & Fa & R). exists (mkPart ty (lenN h + lenN d) h d false :: ps).
    assert (Nm : is_mdat (mkPart ty (lenN h + lenN d) h d false) = false).
    { apply (not_mdat _ (containers ++ special)); [exact Ni|]. right. right. right. right. right. now left. }
    split; [|split; [|split]].
    + rewrite pflat_cons, E. unfold q_all. cbn [q_head q_data]. now rewrite app_assoc.
    + unfold items. cbn [filter]. rewrite Nm. cbn [q_enter negb andb map q_ty q_data]. f_equal. exact Ei.
    + constructor; [|exact Fa]. unfold flat_part. cbn [q_enter q_ty]. split; [|split].
      * intros X. apply Ni, in_or_app. now left.
      * intros X. apply Ni, in_or_app. right. now right.
      * intros _. exact Nm.
    + intros check f pre post ->. cbn [reads q_enter q_size q_head q_data q_ty]. unfold q_all, q_atom. cbn [q_enter q_size q_head q_data q_ty].
      split; [|split; [|split; [|split; [|split]]]].
      * apply (next_header check _ pre ty (lenN h + lenN d) h (d ++ bs ++ post) Lt Hh); [now rewrite <- !app_assoc|]. intros _ _. rewrite !lenN_app. lia.
      * intros _. now rewrite lenN_app.
      * discriminate.
      * rewrite <- (app_assoc h), <- (app_assoc d), (app_assoc pre h). apply sub_app_exact; [now rewrite lenN_app|reflexivity].
      * now apply (header_len ty _ h Lt Hh).
      * specialize (R check (pre ++ (h ++ d ++ bs) ++ post) (pre ++ h ++ d) post). rewrite (lenN_app pre) in R. apply R. now rewrite <- !app_assoc.
  - destruct IH as (ps & E & Ei & Fa & R). destruct IH' as (ps' & E' & Ei' & Fa' & R').
    exists (mkPart ty (lenN h + lenN b) h [] true :: ps ++ ps'). split; [|split; [|split]].
    + rewrite pflat_cons, pflat_app, E, E'. unfold q_all. cbn [q_head q_data]. now rewrite app_nil_r.
    + unfold items. cbn [filter q_enter negb andb]. fold (items (ps ++ ps')). now rewrite items_app, Ei, Ei'.
    + constructor; [exact Ic|]. apply Forall_app. now split.
    + intros check f pre post ->. cbn [reads q_enter q_size q_head q_data q_ty]. unfold q_all, q_atom. cbn [q_enter q_size q_head q_data q_ty]. rewrite app_nil_r.
      pose proof (containers_len ty Ic) as Lt.
      split; [|split; [|split; [|split; [|split]]]].
      * apply (next_header check _ pre ty (lenN h + lenN b) h (b ++ bs ++ post) Lt Hh); [now rewrite <- !app_assoc|]. intros _ _. rewrite !lenN_app. lia.
      * discriminate.
      * reflexivity.
      * unfold sub. change (lenN []) with 0. apply takeN_0.
      * now apply (header_len ty _ h Lt Hh).
      * apply reads_app. split.
        -- specialize (R check (pre ++ (h ++ b ++ bs) ++ post) (pre ++ h) (bs ++ post)). rewrite lenN_app in R. apply R. now rewrite <- !app_assoc.
        -- rewrite E. specialize (R' check (pre ++ (h ++ b ++ bs) ++ post) (pre ++ h ++ b) post). rewrite (lenN_app pre), (lenN_app h), N.add_assoc in R'. apply R'. now rewrite <- !app_assoc.
  - destruct IH as (ps & E & Ei & Fa & R). exists (mkPart (bstr "mdat") (lenN h + lenN d) h d false :: ps).
    split; [|split; [|split]].
    + rewrite pflat_cons, E. unfold q_all. cbn [q_head q_data]. now rewrite app_assoc.
    + unfold items. cbn [filter]. change (is_mdat (mkPart (bstr "mdat") (lenN h + lenN d) h d false)) with true. cbn [q_enter negb andb]. exact Ei.
    + constructor; [|exact Fa]. unfold flat_part. cbn [q_enter q_ty]. split; [|split].
      * cbn [In containers]. intros [X|[X|[X|[X|[X|[]]]]]]; vm_compute in X; discriminate.
      * cbn [In]. intros [X|[X|[]]]; vm_compute in X; discriminate.
      * intros ->. discriminate.
    + intros check f pre post ->. cbn [reads q_enter q_size q_head q_data q_ty]. unfold q_all, q_atom. cbn [q_enter q_size q_head q_data q_ty].
      split; [|split; [|split; [|split; [|split]]]].
      * apply (next_header check _ pre (bstr "mdat") (lenN h + lenN d) h (d ++ bs ++ post) eq_refl Hh); [now rewrite <- !app_assoc|]. discriminate.
      * intros _. now rewrite lenN_app.
      * discriminate.
      * rewrite <- (app_assoc h), <- (app_assoc d), (app_assoc pre h). apply sub_app_exact; [now rewrite lenN_app|reflexivity].
      * now apply (header_len (bstr "mdat") _ h eq_refl Hh).
      * specialize (R check (pre ++ (h ++ d ++ bs) ++ post) (pre ++ h ++ d) post). rewrite (lenN_app pre) in R. apply R. now rewrite <- !app_assoc.
Qed.
(** ... and by one that does not *)
Definition top_part (p : part) : Prop := q_enter p = false /\ ~ In (q_ty p) special.
Lemma boxes_top its b : boxes false its b -> exists ps, pflat ps = b /\ Forall top_part ps /\
  forall check (f pre post : bytes), f = pre ++ b ++ post -> reads check f (lenN pre) ps.
Proof.
  assert (One : forall ty h d bs, lenN ty = 4 -> ~ In ty special -> header ty (lenN h + lenN d) h -> forall ps, pflat ps = bs -> Forall top_part ps ->
    (forall check (f pre post : bytes), f = pre ++ bs ++ post -> reads check f (lenN pre) ps) ->
    exists ps, pflat ps = h ++ d ++ bs /\ Forall top_part ps /\ forall check (f pre post : bytes), f = pre ++ (h ++ d ++ bs) ++ post -> reads check f (lenN pre) ps).
  { intros ty h d bs Lt Ni Hh ps E Fa R. exists (mkPart ty (lenN h + lenN d) h d false :: ps). split; [|split].
    - rewrite pflat_cons, E. unfold q_all. cbn [q_head q_data]. now rewrite app_assoc.
    - constructor; [now split|exact Fa].
    - intros check f pre post ->. cbn [reads q_enter q_size q_head q_data q_ty]. unfold q_all, q_atom. cbn [q_enter q_size q_head q_data q_ty].
      split; [|split; [|split; [|split; [|split]]]].
      * apply (next_header check _ pre ty (lenN h + lenN d) h (d ++ bs ++ post) Lt Hh); [now rewrite <- !app_assoc|]. intros _ _. rewrite !lenN_app. lia.
      * intros _. now rewrite lenN_app.
      * discriminate.
      * rewrite <- (app_assoc h), <- (app_assoc d), (app_assoc pre h). apply sub_app_exact; [now rewrite lenN_app|reflexivity].
      * now apply (header_len ty _ h Lt Hh).
      * specialize (R check (pre ++ (h ++ d ++ bs) ++ post) (pre ++ h ++ d) post). rewrite (lenN_app pre) in R. apply R. now rewrite <- !app_assoc. }
  induction 1 as [|ty h d its bs Lt Ni Hh Hb IH|ty h its b its' bs Ic Hh Hb IH Hb' IH'|h d its bs Em Hh Hb IH].
  - exists []. repeat split; constructor.
  - destruct IH as (ps & E & Fa & R). apply (One ty h d bs Lt) with (ps := ps); try assumption. intros X. apply Ni, in_or_app. now right.
  - destruct IH' as (ps & E & Fa & R). apply (One ty h b bs (containers_len ty Ic)) with (ps := ps); try assumption.
    cbn [In containers] in Ic. intros [X|[X|[X|[]]]]; subst ty; destruct Ic as [X|[X|[X|[X|[X|[]]]]]]; vm_compute in X; discriminate.
  - discriminate.
Qed.

(** ** The tables of a track *)
Definition TY_O := [bstr "stco"; bstr "co64"].
Definition TY_Z := [bstr "stsz"; bstr "stz2"].
Definition left_over (o c z : bytes * bytes) (so sc sz : bool) (l : list (bytes * bytes)) : Prop :=
  of_type [bstr "tkhd"] l = [] /\ of_type TY_O l = (if so then [] else [o]) /\ of_type [bstr "stsc"] l = (if sc then [] else [c]) /\ of_type TY_Z l = (if sz then [] else [z]).
Definition no_table (it : bytes * bytes) : Prop :=
  existsb (beqb (fst it)) [bstr "tkhd"] = false /\ existsb (beqb (fst it)) [bstr "stco"; bstr "co64"; bstr "stsc"; bstr "stsz"; bstr "stz2"] = false.
Lemma type_cons tys it l : of_type tys (it :: l) = if existsb (beqb (fst it)) tys then it :: of_type tys l else of_type tys l.
Proof. reflexivity. Qed.
Lemma excl (x : bytes) a b : existsb (beqb x) a = true -> existsb (fun y => existsb (beqb y) b) a = false -> existsb (beqb x) b = false.
Proof.
  intros H N. apply existsb_exists in H as (y & Hy & E). apply beqb_eq in E. subst y. destruct (existsb (beqb x) b) eqn:B; [|reflexivity].
  rewrite <- N. symmetry. apply existsb_exists. now exists x.
Qed.
Lemma table_case o c z so sc sz it l : left_over o c z so sc sz (it :: l) ->
  (so = false /\ it = o /\ left_over o c z true sc sz l) \/ (sc = false /\ it = c /\ left_over o c z so true sz l) \/
  (sz = false /\ it = z /\ left_over o c z so sc true l) \/ (no_table it /\ left_over o c z so sc sz l).
Proof.
  intros (K & O & C & Z). rewrite type_cons in K, O, C, Z. destruct (existsb (beqb (fst it)) [bstr "tkhd"]) eqn:Ek; [discriminate|].
  destruct (existsb (beqb (fst it)) TY_O) eqn:Eo.
  - left. rewrite (excl _ _ [bstr "stsc"] Eo eq_refl) in C. rewrite (excl _ _ TY_Z Eo eq_refl) in Z. destruct so; [discriminate|]. injection O as -> O. now repeat split.
  - right. destruct (existsb (beqb (fst it)) [bstr "stsc"]) eqn:Ec.
    + left. rewrite (excl _ _ TY_Z Ec eq_refl) in Z. destruct sc; [discriminate|]. injection C as -> C. now repeat split.
    + right. destruct (existsb (beqb (fst it)) TY_Z) eqn:Ez.
      * left. destruct sz; [discriminate|]. injection Z as -> Z. now repeat split.
      * right. split; [|now repeat split]. split; [exact Ek|]. cbn [existsb TY_O TY_Z] in *. rewrite !orb_false_iff in *. tauto.
Qed.
Lemma left_nil o c z so sc sz : left_over o c z so sc sz [] -> so = true /\ sc = true /\ sz = true.
Proof. intros (_ & O & C & Z). destruct so, sc, sz; try discriminate; now repeat split. Qed.

(** ** The dictionary of the tracks *)
Lemma get_set_m k v d : get_m k (set_m k v d) = Some v.
Proof. induction d as [|(q, w) d IH]; cbn; [now rewrite N.eqb_refl|]. destruct (q =? k) eqn:E; cbn; rewrite E; [reflexivity|exact IH]. Qed.
Lemma set_set_m k v w d : set_m k v (set_m k w d) = set_m k v d.
Proof. induction d as [|(q, x) d IH]; cbn; [now rewrite N.eqb_refl|]. destruct (q =? k) eqn:E; cbn; rewrite E; [reflexivity|now rewrite IH]. Qed.
Lemma set_new_m k v d : ~ In k (map fst d) -> set_m k v d = d ++ [(k, v)].
Proof. induction d as [|(q, x) d IH]; intros H; [reflexivity|]. cbn in *. replace (q =? k) with false by (symmetry; apply N.eqb_neq; intros ->; apply H; now left). rewrite IH; [reflexivity|]. tauto. Qed.
Lemma get_new_m k d : ~ In k (map fst d) -> get_m k d = None.
Proof. induction d as [|(q, x) d IH]; intros H; [reflexivity|]. cbn in *. replace (q =? k) with false by (symmetry; apply N.eqb_neq; intros ->; apply H; now left). apply IH. tauto. Qed.
Lemma get_in_m k v d : NoDup (map fst d) -> In (k, v) d -> get_m k d = Some v.
Proof.
  induction d as [|(q, x) d IH]; intros Nd H; [destruct H|]. cbn in *. inversion Nd as [|? ? Nq Nd']; subst. destruct H as [E|H].
  - injection E as -> ->. now rewrite N.eqb_refl.
  - replace (q =? k) with false; [now apply IH|]. symmetry. apply N.eqb_neq. intros ->. apply Nq. apply (in_map fst) in H. exact H.
Qed.

(** ** profile_mp4_srs and profile_mp4, box by box *)
Definition at_type (ty : bytes) : atom := mkAtom ty 0 [] 0.
Definition sitem (ids : list N) (s : mtracks * option N) (it : bytes * bytes) : result (mtracks * option N) :=
  if beqb (fst it) (bstr "tkhd") then
    do k <- unpack_be 4 (snd it) 12;
    if existsb (N.eqb k) ids then Ok (set_m k (mkM [] [] [] [] 0) (fst s), Some k) else Err KeyError
  else
    match snd s with
    | None =>
      match add_table (mkM [] [] [] [] 0) (at_type (fst it)) (snd it) with
      | None => Ok s
      | Some _ => Err (if beqb (fst it) (bstr "stco") || beqb (fst it) (bstr "co64") then AssertionError else AttributeError)
      end
    | Some k =>
      match get_m k (fst s) with
      | None => Ok s
      | Some t =>
        match add_table t (at_type (fst it)) (snd it) with
        | None => Ok s
        | Some r => do t <- r; Ok (set_m k t (fst s), Some k)
        end
      end
    end.
Definition titem (f : bytes) (p : pstate) (it : bytes * bytes) : result pstate := do p <- track_atom p (at_type (fst it)) (snd it); process f p.
(** the tables of a track; with the signature *)
Definition tables (t : vtrack) (sig : bytes) (len : N) : mtrack := mkM (map fst (v_chunks t)) (expand (v_table t)) (map lenN (v_samples t)) sig len.
Lemma unpack_id d k : 16 <= lenN d -> unbe (sub 12 4 d) = k -> unpack_be 4 d 12 = Ok k.
Proof. intros L <-. unfold unpack_be. change (N.of_nat 4) with 4. rewrite lenN_sub. replace (N.min 4 (lenN d - 12)) with 4 by lia. reflexivity. Qed.
Definition half (t : vtrack) (so sc sz : bool) (sig : bytes) (len : N) : mtrack :=
  mkM (if so then map fst (v_chunks t) else []) (if sc then expand (v_table t) else []) (if sz then map lenN (v_samples t) else []) sig len.
Lemma half_add t o c z so sc sz it l sig len : offsets_box o (map fst (v_chunks t)) -> chunks_box c (v_table t) -> sizes_box z (map lenN (v_samples t)) ->
  left_over o c z so sc sz (it :: l) -> exists so' sc' sz', left_over o c z so' sc' sz' l /\ beqb (fst it) (bstr "tkhd") = false /\
  ((add_table (half t so sc sz sig len) (at_type (fst it)) (snd it) = None /\ (so', sc', sz') = (so, sc, sz)) \/
   add_table (half t so sc sz sig len) (at_type (fst it)) (snd it) = Some (Ok (half t so' sc' sz' sig len)) /\ so && sc && sz = false).
Proof.
  intros Ho Hc Hz L. destruct (table_case _ _ _ _ _ _ _ _ L) as [(-> & -> & L')|[(-> & -> & L')|[(-> & -> & L')|((Nk & Nt) & L')]]].
  - exists true, sc, sz. split; [exact L'|]. split; [destruct Ho; reflexivity|]. right. split; [|reflexivity]. now rewrite (add_offsets _ o _ _ Ho) by reflexivity.
  - exists so, true, sz. split; [exact L'|]. split; [destruct Hc; reflexivity|]. right. split; [|now rewrite andb_false_r]. now rewrite (add_chunks _ c _ _ Hc) by reflexivity.
  - exists so, sc, true. split; [exact L'|]. split; [destruct Hz; reflexivity|]. right. split; [|now rewrite andb_false_r]. now rewrite (add_sizes _ z _ _ Hz) by reflexivity.
  - exists so, sc, sz. split; [exact L'|]. split; [now cbn in Nk; rewrite orb_false_r in Nk|]. left. split; [now apply add_none|reflexivity].
Qed.
Lemma sitem_rest ids t o c z l : offsets_box o (map fst (v_chunks t)) -> chunks_box c (v_table t) -> sizes_box z (map lenN (v_samples t)) ->
  forall so sc sz T k, left_over o c z so sc sz l -> foldR (sitem ids) l (set_m k (half t so sc sz [] 0) T, Some k) = Ok (set_m k (tables t [] 0) T, Some k).
Proof.
  intros Ho Hc Hz. induction l as [|it l IH]; intros so sc sz T k L.
  - apply left_nil in L as (-> & -> & ->). reflexivity.
  - destruct (half_add t o c z so sc sz it l [] 0 Ho Hc Hz L) as (so' & sc' & sz' & L' & Nk & D). cbn [foldR]. unfold sitem at 1. rewrite Nk. cbn [fst snd]. rewrite get_set_m.
    destruct D as [(-> & E)|(-> & _)].
    + injection E as -> -> ->. cbn [bind]. now apply IH.
    + cbn [bind]. rewrite set_set_m. now apply IH.
Qed.
Lemma sitem_track ids t seg T cur : described t seg -> In (v_id t) ids -> ~ In (v_id t) (map fst T) ->
  foldR (sitem ids) seg (T, cur) = Ok (T ++ [(v_id t, tables t [] 0)], Some (v_id t)).
Proof.
  intros (d & rest & o & c & z & -> & Ld & Ek & K & O & C & Z & Ho & Hc & Hz) Hi Hn. cbn [foldR]. unfold sitem at 1. cbn [fst snd].
  change (beqb (bstr "tkhd") (bstr "tkhd")) with true. cbv iota. rewrite (unpack_id d _ Ld Ek). cbn [bind]. replace (existsb _ ids) with true.
  2:{ symmetry. apply existsb_exists. exists (v_id t). split; [exact Hi|apply N.eqb_refl]. }
  cbn [bind]. change (mkM [] [] [] [] 0) with (half t false false false [] 0). rewrite (sitem_rest ids t o c z rest Ho Hc Hz false false false T) by (now repeat split).
  now rewrite set_new_m.
Qed.
Lemma sitem_none ids l : forall T, of_type [bstr "tkhd"; bstr "stco"; bstr "co64"; bstr "stsc"; bstr "stsz"; bstr "stz2"] l = [] -> foldR (sitem ids) l (T, None) = Ok (T, None).
Proof.
  induction l as [|it l IH]; intros T H; [reflexivity|]. rewrite type_cons in H. destruct (existsb _ _) eqn:E; [discriminate|]. cbn [foldR]. unfold sitem at 1.
  cbn [existsb] in E. rewrite !orb_false_iff in E. destruct E as (E1 & E). rewrite E1. cbn [fst snd]. rewrite add_none by (cbn [existsb]; rewrite !orb_false_iff; exact E). cbn [bind]. now apply IH.
Qed.
Lemma fold_app {A S} (g : S -> A -> result S) l : forall r s, foldR g (l ++ r) s = do s' <- foldR g l s; foldR g r s'.
Proof. induction l as [|x l IH]; intros r s; [reflexivity|]. cbn. destruct (g s x); [apply IH|reflexivity]. Qed.
Definition found (sg : vtrack -> bytes) (ln : vtrack -> N) (ts : list vtrack) : mtracks := map (fun t => (v_id t, tables t (sg t) (ln t))) ts.
Lemma found_ids sg ln ts : map fst (found sg ln ts) = map v_id ts.
Proof. unfold found. now rewrite map_map. Qed.
Lemma sitem_tracks ids ts its : tracks_in ts its -> (forall t, In t ts -> In (v_id t) ids) -> exists cur, foldR (sitem ids) its ([], None) = Ok (found (fun _ => []) (fun _ => 0) ts, cur).
Proof.
  intros (Nd & pre & segs & -> & F & P) Hi. rewrite fold_app, sitem_none by exact P. cbn [bind].
  assert (G : forall done cur, NoDup (map v_id (done ++ ts)) -> exists cur', foldR (sitem ids) (concat segs) (found (fun _ => []) (fun _ => 0) done, cur) = Ok (found (fun _ => []) (fun _ => 0) (done ++ ts), cur')).
  { clear Nd P pre. induction F as [|t seg ts segs D F IH]; intros done cur Nd; [exists cur; now rewrite app_nil_r|]. cbn [concat]. rewrite fold_app, (sitem_track ids t seg _ cur D).
    - cbn [bind]. change (done ++ t :: ts) with (done ++ [t] ++ ts) in *. rewrite app_assoc in *. replace (found _ _ done ++ [_]) with (found (fun _ => []) (fun _ => 0) (done ++ [t])) by (unfold found; now rewrite map_app). apply IH; [|exact Nd]. intros x Hx. apply Hi. now right.
    - apply Hi. now left.
    - rewrite found_ids. rewrite map_app in Nd. cbn [map] in Nd. apply NoDup_remove_2 in Nd. intros X. apply Nd, in_or_app. now left. }
  apply (G [] None). exact Nd.
Qed.

(** with signatures *)
Definition upd (p : pstate) (T : mtracks) (cur : option N) (done : bool) : pstate := mkP T cur done (p_meta p) (p_mdat p) (p_crc p).
Definition full (t : vtrack) (so sc sz : bool) : bool := so && sc && sz && (nonempty (map fst (v_chunks t)) && nonempty (expand (v_table t)) && nonempty (map lenN (v_samples t))).
Definition whole (t : vtrack) (so sc sz : bool) : mtrack := if full t so sc sz then half t so sc sz (takeN 256 (v_data t)) (lenN (v_data t)) else half t so sc sz [] 0.
Lemma titem_rest f t o c z p l : counted t -> inside f t -> offsets_box o (map fst (v_chunks t)) -> chunks_box c (v_table t) -> sizes_box z (map lenN (v_samples t)) ->
  forall so sc sz T k, left_over o c z so sc sz l ->
  foldR (titem f) l (upd p (set_m k (whole t so sc sz) T) (Some k) (full t so sc sz)) = Ok (upd p (set_m k (whole t true true true) T) (Some k) (full t true true true)).
Proof.
  intros Hct Hin Ho Hc Hz. induction l as [|it l IH]; intros so sc sz T k L.
  - apply left_nil in L as (-> & -> & ->). reflexivity.
  - cbn [foldR]. unfold titem at 1. unfold track_atom. cbn [upd p_cur p_tracks p_done p_meta p_mdat p_crc]. unfold is_atom. cbn [a_type at_type].
    assert (Pr : forall b so' sc' sz', b = false \/ full t so' sc' sz' = b -> process f (mkP (set_m k (if b then whole t so' sc' sz' else half t so' sc' sz' [] 0) T) (Some k) b (p_meta p) (p_mdat p) (p_crc p)) = Ok (upd p (set_m k (whole t so' sc' sz') T) (Some k) (full t so' sc' sz'))).
    { intros b so' sc' sz' Hb. unfold process. cbn [p_cur p_tracks p_done p_meta p_mdat p_crc]. rewrite get_set_m. destruct b; [destruct Hb as [Hb|Hb]; [discriminate|]; rewrite Hb; reflexivity|]. cbn [negb andb].
      unfold whole, full in *. destruct so'; cbn [half m_offsets nonempty andb]; [|reflexivity]. destruct sc'; cbn [half m_lengths nonempty andb]; [|rewrite andb_false_r; reflexivity].
      destruct sz'; cbn [half m_sizes nonempty andb]; [|rewrite !andb_false_r; reflexivity].
      destruct (nonempty (map fst (v_chunks t)) && nonempty (expand (v_table t)) && nonempty (map lenN (v_samples t))) eqn:Ne; [|reflexivity].
      unfold half. cbn [m_offsets m_lengths m_sizes]. rewrite (signature_is f t [] 0 Hct Hin). cbn [bind]. rewrite set_set_m, sum_len. reflexivity. }
    assert (Wh : whole t so sc sz = half t so sc sz (m_sig (whole t so sc sz)) (m_length (whole t so sc sz))) by (unfold whole; now destruct (full t so sc sz)).
    destruct (half_add t o c z so sc sz it l (m_sig (whole t so sc sz)) (m_length (whole t so sc sz)) Ho Hc Hz L) as (so' & sc' & sz' & L' & Nk & D). rewrite Nk, get_set_m. rewrite <- Wh in D.
    destruct D as [(-> & E)|(E & Nf)].
    + injection E as -> -> ->. cbn [bind]. pose proof (Pr (full t so sc sz) so sc sz (or_intror eq_refl)) as Q.
      replace (if full t so sc sz then whole t so sc sz else half t so sc sz [] 0) with (whole t so sc sz) in Q by (unfold whole; now destruct (full t so sc sz)).
      unfold upd in Q at 1 |- * at 1. rewrite Q. now apply IH.
    + rewrite E. cbn [bind]. rewrite set_set_m. assert (Fl : full t so sc sz = false) by (unfold full; now rewrite Nf). unfold whole. rewrite Fl. cbn [half m_sig m_length].
      rewrite (Pr false so' sc' sz' (or_introl eq_refl)). now apply IH.
Qed.
(** a track without chunks has no data *)
Lemma whole_final t : counted t -> whole t true true true = tables t (takeN 256 (v_data t)) (lenN (v_data t)).
Proof.
  intros (_ & _ & T). unfold whole. destruct (full t true true true) eqn:F; [reflexivity|]. assert (E : v_data t = []).
  { unfold full in F. cbn [andb] in F. unfold v_data, v_samples in *. destruct (v_chunks t) as [|(o, ds) l]; [reflexivity|]. cbn [map nonempty andb] in F.
    destruct (T O o ds eq_refl) as (x & Hx & _). destruct (expand (v_table t)) eqn:Ex.
    - apply stsc_nil in Ex. now destruct (v_table t).
    - cbn [nonempty andb] in F. cbn [map] in F |- *. destruct (concat (snd (o, ds) :: map snd l)); [reflexivity|discriminate]. }
  rewrite E. reflexivity.
Qed.
Definition final (t : vtrack) : N * mtrack := (v_id t, tables t (takeN 256 (v_data t)) (lenN (v_data t))).
Lemma titem_track f t seg p : described t seg -> counted t -> inside f t -> ~ In (v_id t) (map fst (p_tracks p)) ->
  exists cur done, foldR (titem f) seg p = Ok (upd p (p_tracks p ++ [final t]) cur done).
Proof.
  intros (d & rest & o & c & z & -> & Ld & Ek & K & O & C & Z & Ho & Hc & Hz) Hct Hin Hn. cbn [foldR]. unfold titem at 1. unfold track_atom. cbn [fst snd]. unfold is_atom. cbn [a_type at_type].
  change (beqb (bstr "tkhd") (bstr "tkhd")) with true. cbv iota. rewrite (unpack_id d _ Ld Ek). cbn [bind]. rewrite get_new_m by exact Hn. cbn [bind].
  unfold process at 1. cbn [p_cur p_tracks p_done]. rewrite get_set_m. cbn [negb andb m_offsets nonempty].
  change (mkM [] [] [] [] 0) with (whole t false false false). cbn [bind].
  change (mkP ?a ?b false ?m ?md ?cr) with (upd p a b (full t false false false)).
  rewrite (titem_rest f t o c z p rest Hct Hin Ho Hc Hz false false false) by (now repeat split). rewrite whole_final by exact Hct. rewrite set_new_m by exact Hn. now exists (Some (v_id t)), (full t true true true).
Qed.
Lemma titem_none f l : forall p, of_type [bstr "tkhd"; bstr "stco"; bstr "co64"; bstr "stsc"; bstr "stsz"; bstr "stz2"] l = [] -> p_cur p = None -> foldR (titem f) l p = Ok p.
Proof.
  induction l as [|it l IH]; intros p H Hp; [reflexivity|]. rewrite type_cons in H. destruct (existsb _ _) eqn:E; [discriminate|]. cbn [foldR]. unfold titem at 1, track_atom, is_atom. cbn [a_type at_type].
  cbn [existsb] in E. rewrite !orb_false_iff in E. destruct E as (E1 & E). rewrite E1, Hp. rewrite add_none by (cbn [existsb]; rewrite !orb_false_iff; exact E). cbn [bind].
  unfold process. rewrite Hp. now apply IH.
Qed.
Lemma titem_tracks f ts its : tracks_in ts its -> Forall (fun t => counted t /\ inside f t) ts -> exists cur done, foldR (titem f) its (mkP [] None false 0 0 0) = Ok (mkP (map final ts) cur done 0 0 0).
Proof.
  intros (Nd & pre & segs & -> & F & P) Hf. rewrite fold_app, titem_none by (exact P || reflexivity). cbn [bind].
  assert (G : forall pr cur done, NoDup (map v_id (pr ++ ts)) -> exists cur' done', foldR (titem f) (concat segs) (mkP (map final pr) cur done 0 0 0) = Ok (mkP (map final (pr ++ ts)) cur' done' 0 0 0)).
  { clear Nd P pre. induction F as [|t seg ts segs D F IH]; intros pr cur done Nd; [exists cur, done; now rewrite app_nil_r|]. inversion Hf as [|? ? (Hct & Hin) Hf']; subst. cbn [concat]. rewrite fold_app.
    destruct (titem_track f t seg (mkP (map final pr) cur done 0 0 0) D Hct Hin) as (cur' & done' & ->).
    - cbn [p_tracks]. rewrite map_map. change (map (fun x => fst (final x)) pr) with (map v_id pr). rewrite map_app in Nd. cbn [map] in Nd. apply NoDup_remove_2 in Nd. intros X. apply Nd, in_or_app. now left.
    - cbn [bind]. change (pr ++ t :: ts) with (pr ++ [t] ++ ts) in *. rewrite app_assoc in *. cbn [p_tracks upd p_meta p_mdat p_crc].
      replace (map final pr ++ [final t]) with (map final (pr ++ [t])) by (now rewrite map_app). now apply IH. }
  now apply (G [] None false).
Qed.
