(** AviExtract: taking the data of the tracks out of the main file. *)
From Verif Require Import Base BaseFacts Crc CrcFacts SrsRec SrsRecSpec SrsRecFacts Srs SrrFacts StrmFacts Avi StrmSpec Mp3Spec AviSpec AviRead AviSrs AviOut.

(** ** The loop *)
Definition fl (o : option bytes) : bytes := match o with Some e => e | None => [] end.
Definition tail (off : Z) (at_ : N) (d : bytes) : bytes := dropN (Z.to_N off - at_) d.
Definition extract' (s : tracks * bool) (pos : N) (i : item) : result ((tracks * bool) * bool) :=
  match i with
  | Lst _ _ _ => Ok (s, true)
  | Chk cc d pad =>
    match stream_no cc with
    | None => Ok (s, true)
    | Some n =>
      let ts := with_new n (fst s) in
      do t <- get_track n ts;
      if (t_offset t <? Z.of_N (pos + 8) + Z.of_N (lenN d))%Z then
        let e := fl (t_file t) in
        let ts := set_track n (with_file t (if lenN e <? td_length (t_td t) then e ++ tail (t_offset t) (pos + 8) d else e)) ts in
        Ok ((ts, forallb (fun t => complete (snd t)) ts), true)
      else Ok ((ts, snd s), true)
    end
  end.
Lemma extract_acts f its : Forall item_ok its -> acts false (extract_step f) extract' f its.
Proof.
  intros F a i b s Hi E. rewrite Forall_forall in F. specialize (F i Hi). destruct s as (ts, done). destruct i as [ty size name|cc d pad]; [reflexivity|].
  unfold extract_step, extract'. change (c_kind (ck (Chk cc d pad) (lenN a))) with (kind cc). rewrite (skip_is f a b cc d pad F E). rewrite (read_is f a b cc d pad F false E) by discriminate.
  rewrite (ck_data cc d pad (lenN a)) by exact (proj1 (proj1 F)). change (c_length (ck (Chk cc d pad) (lenN a))) with (Z.of_N (lenN d)). cbn [fst snd]. unfold kind.
  destruct (stream_no cc) as [n|]; [|destruct (beqb cc (bstr "idx1")); reflexivity]. destruct (get_track n (with_new n ts)) as [t|e]; [|reflexivity]. cbn [bind].
  destruct (t_offset t <? Z.of_N (lenN a + 8) + Z.of_N (lenN d))%Z; [|reflexivity]. fold (fl (t_file t)). destruct (lenN (fl (t_file t)) <? td_length (t_td t)); [|reflexivity]. cbn [bind fst snd].
  unfold tail. destruct (Z.leb_spec (t_offset t) (Z.of_N (lenN a + 8))) as [L|L]; [|reflexivity]. replace (Z.to_N (t_offset t) - (lenN a + 8)) with 0 by lia. now rewrite dropN_0.
Qed.
Lemma dropN_nil {A} n : dropN n (@nil A) = []. Proof. apply dropN_all. cbn [lenN]. lia. Qed.
(** the data of stream [n] from [off] on *)
Fixpoint from (n : N) (off : Z) (pos : N) (its : list item) : bytes :=
  match its with
  | [] => []
  | i :: its => tail off (pos + 8) (piece n i) ++ from n off (pos + lenN (item_bytes i)) its
  end.
Definition reach (n : N) (off : Z) (pos : N) (its : list item) : Prop :=
  exists a cc d pad b, its = a ++ Chk cc d pad :: b /\ stream_no cc = Some n /\ (off < Z.of_N (pos + lenN (file_of a) + 8 + lenN d))%Z.
(** [len]: as much is needed; [e]: so far; [av]: more of it; [e']: in the end *)
Definition grown (len : N) (e av e' : bytes) : Prop :=
  starts e e' /\ starts e' (e ++ av) /\ (len <= lenN e -> e' = e) /\ (len <= lenN e' \/ e' = e ++ av).
Lemma grown_nil len e : grown len e [] e.
Proof. split; [exists []; now rewrite app_nil_r|]. split; [exists []; now rewrite !app_nil_r|]. split; [reflexivity|]. right. now rewrite app_nil_r. Qed.
Lemma grown_full len e av : len <= lenN e -> grown len e av e.
Proof. intros H. split; [exists []; now rewrite app_nil_r|]. split; [now exists av|]. split; [reflexivity|now left]. Qed.
Lemma grown_step len e d av e' : grown len (if lenN e <? len then e ++ d else e) av e' -> grown len e (d ++ av) e'.
Proof.
  destruct (N.ltb_spec (lenN e) len) as [L|L]; intros ((r & A) & (q & B) & C & D).
  - split; [exists (d ++ r); rewrite A; now rewrite <- app_assoc|]. split; [exists q; rewrite app_assoc; exact B|]. split; [lia|]. destruct D as [D|D]; [now left|right; rewrite D; now rewrite <- app_assoc].
  - rewrite (C L). now apply grown_full.
Qed.
Definition same_td (t t' : track) : Prop := t_td t' = t_td t /\ t_offset t' = t_offset t.
Lemma pos_snoc pos i a : pos + lenN (item_bytes i) + lenN (file_of a) = pos + lenN (file_of (i :: a)). Proof. rewrite file_cons, lenN_app. lia. Qed.
Lemma reach_cons n off pos i its : reach n off pos (i :: its) -> reach n off (pos + lenN (item_bytes i)) its \/ exists cc d pad, i = Chk cc d pad /\ stream_no cc = Some n /\ (off < Z.of_N (pos + 8 + lenN d))%Z.
Proof.
  intros (a & cc & d & pad & b & E & Sn & L). destruct a as [|j a]; cbn [app] in E; injection E as Ei E.
  - right. exists cc, d, pad. repeat split; [exact Ei|exact Sn|]. cbn [file_of map concat lenN] in L. lia.
  - left. exists a, cc, d, pad, b. repeat split; [exact E|exact Sn|]. rewrite Ei, pos_snoc. exact L.
Qed.
Lemma has_cons n i its : has_stream n (i :: its) <-> has_stream n [i] \/ has_stream n its. Proof. exact (has_app n [i] its). Qed.
Definition enlists (ns : list N) (n : N) : list N := if in_dec N.eq_dec n ns then ns else ns ++ [n].
Lemma with_new_table g ns n : (forall k, ~ In k ns -> g k = new_track k) -> with_new n (table g ns) = table g (enlists ns n).
Proof. intros H. unfold enlists. destruct (in_dec N.eq_dec n ns) as [I|I]; [now apply with_new_in|apply with_new_out; [exact I|now apply H]]. Qed.
Lemma enlists_nodup ns n : NoDup ns -> NoDup (enlists ns n).
Proof. intros H. unfold enlists. destruct (in_dec N.eq_dec n ns); [exact H|now apply NoDup_snoc]. Qed.
Lemma enlists_in ns n k : In k (enlists ns n) <-> In k ns \/ k = n.
Proof. unfold enlists. destruct (in_dec N.eq_dec n ns) as [I|I]; [split; [now left|intros [H| ->]; assumption]|]. rewrite in_app_iff. cbn [In]. split; (intros [H|H]; [now left|right]); [destruct H as [H|[]]; now symmetry|left; now symmetry]. Qed.
Lemma complete_table g ns : forallb (fun t => complete (snd t)) (table g ns) = true -> forall n, In n ns -> complete (g n) = true.
Proof. intros H n Hn. rewrite forallb_forall in H. specialize (H (n, g n)). apply H. unfold table. apply in_map_iff. now exists n. Qed.
Lemma extract_run its : forall pos g ns done, NoDup ns -> (forall n, ~ In n ns -> g n = new_track n) -> (done = true -> forall n, In n ns -> complete (g n) = true) ->
  exists g' ns' done', irun false snd extract' its pos (table g ns : tracks, done) = Ok (table g' ns' : tracks, done') /\ NoDup ns' /\ (forall n, In n ns -> In n ns') /\ (forall n, In n ns' -> In n ns \/ has_stream n its) /\
  (forall n, same_td (g n) (g' n) /\ grown (td_length (t_td (g n))) (fl (t_file (g n))) (from n (t_offset (g n)) pos its) (fl (t_file (g' n))) /\ (t_file (g n) <> None -> t_file (g' n) <> None)) /\
  ((forall n, In n ns' -> complete (g' n) = true) \/ forall n, reach n (t_offset (g n)) pos its -> t_file (g' n) <> None).
Proof.
  induction its as [|i its IH]; intros pos g ns done Nd New Dn.
  { exists g, ns, done. split; [reflexivity|]. split; [exact Nd|]. split; [auto|]. split; [auto|]. split; [intros n; split; [now split|]; split; [apply grown_nil|auto]|]. right. intros n (a & cc & d & pad & b & E & _). now destruct a. }
  cbn [irun snd]. destruct done.
  { specialize (Dn eq_refl). exists g, ns, true. split; [reflexivity|]. split; [exact Nd|]. split; [auto|]. split; [auto|]. split; [|left; exact Dn]. intros n. split; [now split|]. split; [|auto].
    destruct (in_dec N.eq_dec n ns) as [I|I].
    - apply grown_full. specialize (Dn n I). unfold complete in Dn. destruct (t_file (g n)); [|discriminate Dn]. cbn [fl]. lia.
    - rewrite (New n I). apply grown_full. cbn. lia. }
  clear Dn. change (enc false i) with (enc false i).
  assert (Skip : (forall n, piece n i = []) -> (forall n, ~ has_stream n [i]) -> extract' (table g ns, false) pos i = Ok ((table g ns, false), true) ->
    exists g' ns' done', (do x <- extract' (table g ns, false) pos i; if snd x then irun false snd extract' its (pos + lenN (enc false i)) (fst x) else Ok (fst x)) = Ok (table g' ns' : tracks, done') /\ NoDup ns' /\ (forall n, In n ns -> In n ns') /\ (forall n, In n ns' -> In n ns \/ has_stream n (i :: its)) /\
    (forall n, same_td (g n) (g' n) /\ grown (td_length (t_td (g n))) (fl (t_file (g n))) (from n (t_offset (g n)) pos (i :: its)) (fl (t_file (g' n))) /\ (t_file (g n) <> None -> t_file (g' n) <> None)) /\
    ((forall n, In n ns' -> complete (g' n) = true) \/ forall n, reach n (t_offset (g n)) pos (i :: its) -> t_file (g' n) <> None)).
  { intros Hp Hs ->. cbn [bind fst snd]. destruct (IH (pos + lenN (enc false i)) g ns false Nd New) as (g' & ns' & done' & E & A & B & C & D & G); [discriminate|]. exists g', ns', done'. split; [exact E|]. split; [exact A|]. split; [exact B|].
    split; [intros n Hn; destruct (C n Hn); [now left|right; apply has_cons; now right]|]. rewrite enc_false in *. split; [intros n; cbn [from]; rewrite Hp; unfold tail; rewrite dropN_nil; exact (D n)|].
    destruct G as [G|G]; [now left|right]. intros n Hr. apply reach_cons in Hr as [Hr|(cc & d & pad & -> & Sn & _)]; [now apply G|]. exfalso. apply (Hs n). now apply has_one. }
  destruct i as [ty size name|cc d pad]; [apply Skip; [reflexivity|intros n; apply has_list|reflexivity]|].
  destruct (stream_no cc) as [n|] eqn:Sn.
  2: { apply Skip; [intros n; cbn [piece]; now rewrite Sn|intros n (c & e & p & [X|[]] & Y); injection X as <- <- <-; congruence|]. unfold extract'. now rewrite Sn. }
  clear Skip. unfold extract' at 1. rewrite Sn. cbn [fst snd]. rewrite (with_new_table g ns n New). rewrite (get_table g _ n) by (apply enlists_in; now right). cbn [bind].
  assert (Own : piece n (Chk cc d pad) = d) by (cbn [piece]; now rewrite Sn, N.eqb_refl).
  assert (Oth : forall k, k <> n -> piece k (Chk cc d pad) = []) by (intros k Hk; cbn [piece]; rewrite Sn; destruct (N.eqb_spec n k); [congruence|reflexivity]).
  pose proof (enlists_nodup ns n Nd) as Nd1. assert (Hn1 : In n (enlists ns n)) by (apply enlists_in; now right).
  destruct (Z.ltb_spec (t_offset (g n)) (Z.of_N (pos + 8) + Z.of_N (lenN d))) as [L|L].
  - rewrite set_table by assumption. cbn [bind fst snd]. set (e1 := if lenN (fl (t_file (g n))) <? td_length (t_td (g n)) then _ else _). set (g1 := fun k => if k =? n then with_file (g n) e1 else g k).
    destruct (IH (pos + lenN (enc false (Chk cc d pad))) g1 (enlists ns n) (forallb (fun t => complete (snd t)) (table g1 (enlists ns n))) Nd1) as (g' & ns' & done' & E & A & B & C & D & G).
    { intros k Hk. unfold g1. destruct (N.eqb_spec k n) as [->|]; [now destruct Hk|]. apply New. intros X. apply Hk, enlists_in. now left. }
    { intros X. now apply complete_table. }
    exists g', ns', done'. split; [exact E|]. split; [exact A|]. split; [intros k Hk; apply B, enlists_in; now left|].
    split; [intros k Hk; destruct (C k Hk) as [X|X]; [apply enlists_in in X as [X| ->]; [now left|right; apply has_cons; left; now apply has_one]|right; apply has_cons; now right]|].
    split.
    + intros k. specialize (D k). unfold g1 in D. cbn [from]. rewrite <- enc_false. destruct (N.eq_dec k n) as [->|Nk].
      * rewrite !N.eqb_refl in D. cbn [with_file t_td t_offset t_file fl] in D. destruct D as ((D1 & D2) & D3 & D4). split; [now split|]. split; [|intros _; apply D4; discriminate]. rewrite Own. apply grown_step. exact D3.
      * replace (k =? n) with false in D by (symmetry; now apply N.eqb_neq). rewrite Oth by exact Nk. unfold tail. rewrite dropN_nil. exact D.
    + destruct G as [G|G]; [now left|right]. intros k Hr. destruct (N.eqb_spec k n) as [->|Nk].
      * destruct (D n) as (_ & _ & D4). apply D4. unfold g1. rewrite N.eqb_refl. discriminate.
      * apply reach_cons in Hr as [Hr|(c & e & p & X & Y & _)]; [|injection X as <- <- <-; congruence]. apply G. unfold g1. replace (k =? n) with false by (symmetry; now apply N.eqb_neq). rewrite enc_false. exact Hr.
  - cbn [bind fst snd]. destruct (IH (pos + lenN (enc false (Chk cc d pad))) g (enlists ns n) false Nd1) as (g' & ns' & done' & E & A & B & C & D & G); [|discriminate|].
    { intros k Hk. apply New. intros X. apply Hk, enlists_in. now left. }
    exists g', ns', done'. split; [exact E|]. split; [exact A|]. split; [intros k Hk; apply B, enlists_in; now left|].
    split; [intros k Hk; destruct (C k Hk) as [X|X]; [apply enlists_in in X as [X| ->]; [now left|right; apply has_cons; left; now apply has_one]|right; apply has_cons; now right]|].
    split.
    + intros k. specialize (D k). cbn [from]. rewrite <- enc_false. destruct (N.eqb_spec k n) as [->|Nk]; [rewrite Own|rewrite Oth by exact Nk]; unfold tail; [rewrite dropN_all by lia|rewrite dropN_nil]; exact D.
    + destruct G as [G|G]; [now left|right]. intros k Hr. apply reach_cons in Hr as [Hr|(c & e & p & X & Y & Z)]; [apply G; rewrite enc_false; exact Hr|]. injection X as <- <- <-. rewrite Sn in Y. apply some_inj in Y. subst k. lia.
Qed.

(** ** From an offset on *)
Lemma from_app n off a : forall pos b, from n off pos (a ++ b) = from n off pos a ++ from n off (pos + lenN (file_of a)) b.
Proof. induction a as [|i a IH]; intros pos b; [cbn [app from file_of map concat lenN]; now rewrite N.add_0_r|]. cbn [app from]. rewrite IH, <- app_assoc. do 3 f_equal. apply pos_snoc. Qed.
Lemma piece_len n i : item_ok i -> piece n i = [] \/ 8 + lenN (piece n i) <= lenN (item_bytes i).
Proof.
  destruct i as [|cc d pad]; intros I; [now left|]. cbn [piece]. destruct (stream_no cc) as [k|]; [|now left]. destruct (k =? n); [right|now left].
  destruct I as ((L & _) & _). cbn [item_bytes]. rewrite !lenN_app, lenN_le. lia.
Qed.
Lemma from_before n off a : Forall item_ok a -> forall pos, (Z.of_N (pos + lenN (file_of a)) <= off)%Z -> from n off pos a = [].
Proof.
  induction 1 as [|i a Hi _ IH]; intros pos L; [reflexivity|]. cbn [from]. rewrite file_cons, lenN_app in L. rewrite IH by lia. rewrite app_nil_r. unfold tail. destruct (piece_len n i Hi) as [->|P]; [apply dropN_nil|]. apply dropN_all. lia.
Qed.
Lemma from_after n off a : forall pos, (off <= Z.of_N (pos + 8))%Z -> from n off pos a = data_of n a.
Proof.
  induction a as [|i a IH]; intros pos L; [reflexivity|]. cbn [from]. rewrite data_cons, IH by lia. f_equal. unfold tail. replace (Z.to_N off - (pos + 8)) with 0 by lia. apply dropN_0.
Qed.
Lemma app_cmp {A} (a b c : list A) x d : a ++ b = c ++ x :: d -> (exists q, c = a ++ q /\ b = q ++ x :: d) \/ exists q, a = c ++ x :: q.
Proof.
  revert c. induction a as [|y a IH]; intros c E; [left; now exists c|]. destruct c as [|z c]; cbn [app] in E; injection E as -> E; [right; now exists a|].
  destruct (IH c E) as [(q & -> & ->)|(q & ->)]; [left; now exists q|right; now exists q].
Qed.
Lemma held_from n d ms o d1 pre post : Forall item_ok ms -> held n d ms o d1 -> ms = pre ++ post -> lenN (file_of pre) + 8 <= o ->
  starts d (from n (Z.of_N o) (lenN (file_of pre)) post) /\ reach n (Z.of_N o) (lenN (file_of pre)) post.
Proof.
  intros F (pre' & cc & d2 & pad & post' & E & Sn & N2 & Eo & St) E' L. rewrite E' in E. symmetry in E. rewrite E' in F.
  destruct (app_cmp pre post pre' (Chk cc (d1 ++ d2) pad) post' (eq_sym E)) as [(q & -> & Eq)|(q & Eq)].
  - subst post. rewrite file_app, lenN_app in Eo. apply Forall_app in F as (_ & F). apply Forall_app in F as (Fq & F). assert (Hc := Forall_inv F). split.
    + rewrite from_app. rewrite (from_before n _ q Fq) by lia. cbn [app from piece]. rewrite Sn, N.eqb_refl. rewrite (from_after n _ post').
      * unfold tail. rewrite dropN_app_exact by lia. exact St.
      * cbn [item_bytes]. rewrite !lenN_app, lenN_le. destruct Hc as ((L4 & _) & _). lia.
    + exists q, cc, (d1 ++ d2), pad, post'. split; [reflexivity|]. split; [exact Sn|]. rewrite lenN_app. destruct d2; [contradiction|]. rewrite lenN_cons. lia.
  - exfalso. rewrite Eq, file_app, file_cons, !lenN_app in L. cbn [item_bytes] in L. rewrite !lenN_app, lenN_le in L. apply Forall_app in F as (F & _). rewrite Eq in F. apply Forall_app in F as (_ & F). apply Forall_inv in F. destruct F as ((L4 & _) & _). destruct d2; [contradiction|]. rewrite lenN_cons in L. lia.
Qed.
Lemma min_is g ns o : o < 2 ^ 63 -> (forall n, In n ns -> t_offset (g n) = 0 \/ Z.of_N o <= t_offset (g n))%Z -> (exists n, In n ns /\ t_offset (g n) = Z.of_N o) -> 0 < o -> min_offset (table g ns) = o.
Proof.
  intros Lo H (m & Hm & Em) Po. unfold min_offset. set (P := fun n : N => o <= n).
  assert (Lower : forall l, (forall n, In n l -> t_offset (g n) = 0 \/ Z.of_N o <= t_offset (g n))%Z -> o <= fold_right (fun t n => if (0 <? t_offset (snd t))%Z then N.min (Z.to_N (t_offset (snd t))) n else n) (2 ^ 63) (table g l)).
  { induction l as [|k l IH]; intros Hl; [cbn; lia|]. cbn [table map fold_right snd]. specialize (IH (fun n Hn => Hl n (or_intror Hn))). unfold table in IH. pose proof (Hl k (or_introl eq_refl)). destruct (Z.ltb_spec 0 (t_offset (g k))); lia. }
  assert (Upper : forall l, In m l -> fold_right (fun t n => if (0 <? t_offset (snd t))%Z then N.min (Z.to_N (t_offset (snd t))) n else n) (2 ^ 63) (table g l) <= o).
  { induction l as [|k l IH]; intros Hl; [destruct Hl|]. cbn [table map fold_right snd]. destruct Hl as [->|Hl].
    - replace (0 <? t_offset (g m))%Z with true by lia. lia.
    - specialize (IH Hl). unfold table in IH. destruct (0 <? t_offset (g k))%Z; lia. }
  specialize (Lower ns H). specialize (Upper ns Hm). lia.
Qed.
Lemma start_at main (a cc d r : bytes) : main = a ++ cc ++ le 4 (lenN d) ++ d ++ r -> fourcc cc -> d <> [] -> riff_start main (lenN a + 8) = Ok (lenN a).
Proof.
  intros E F D. unfold riff_start. assert (L : lenN a + 8 < lenN main).
  { rewrite E, !lenN_app, lenN_le. destruct F as (L4 & _). destruct d; [contradiction|]. rewrite lenN_cons. lia. }
  replace (8 <=? lenN a + 8) with true by lia. replace (lenN a + 8 <? lenN main) with true by lia. cbn [andb]. replace (lenN a + 8 - 8) with (lenN a) by lia.
  unfold valid_location. rewrite E. rewrite (sub_app_exact a cc) by (reflexivity || now rewrite (proj1 F)). now rewrite (proj2 (valid_fourcc_is cc) F).
Qed.
(** the first of the tracks from the begin of a chunk *)
Lemma extract_is main ms g ns o pre cc d pad post : movie_ok main ms -> NoDup ns -> (forall n, ~ In n ns -> g n = new_track n) -> (forall n, In n ns -> t_file (g n) = None) ->
  ms = pre ++ Chk cc d pad :: post -> o = lenN (file_of pre) + 8 -> d <> [] -> min_offset (table g ns) = o ->
  exists g' ns', avi_extract (table g ns) main = Ok (table g' ns' : tracks) /\ NoDup ns' /\ (forall n, In n ns -> In n ns') /\ (forall n, In n ns' -> In n ns \/ has_stream n (Chk cc d pad :: post)) /\
  (forall n, same_td (g n) (g' n) /\ grown (td_length (t_td (g n))) [] (from n (t_offset (g n)) (o - 8) (Chk cc d pad :: post)) (fl (t_file (g' n)))) /\
  ((forall n, In n ns' -> complete (g' n) = true) \/ forall n, reach n (t_offset (g n)) (o - 8) (Chk cc d pad :: post) -> t_file (g' n) <> None).
Proof.
  intros (F & _ & r & Em & Lr) Nd New Nof Ems Eo Dn Mo. rewrite Ems in F. apply Forall_app in F as (_ & F). assert (I := Forall_inv F).
  unfold avi_extract. rewrite Mo, Eo. rewrite (start_at main (file_of pre) cc d (pad ++ file_of post ++ r)); [|rewrite Em, Ems, file_app, file_cons; cbn [item_bytes]; now rewrite <- !app_assoc|exact (proj1 I)|exact Dn]. cbn [bind].
  replace (lenN (file_of pre) + 8 - 8) with (lenN (file_of pre)) by lia.
  rewrite (run_items false false snd _ extract' main (Chk cc d pad :: post) (file_of pre) r); [|rewrite Em, Ems, file_app, <- app_assoc; reflexivity|exact Lr|exact F|discriminate|now apply extract_acts].
  destruct (extract_run (Chk cc d pad :: post) (lenN (file_of pre)) g ns false Nd New) as (g' & ns' & done' & E & A & B & C & D & G); [discriminate|].
  exists g', ns'. split; [match goal with |- bind ?a ?b = _ => transitivity (bind (Ok (table g' ns' : tracks, done')) b); [f_equal; exact E|reflexivity] end|]. split; [exact A|]. split; [exact B|]. split; [exact C|]. split; [|exact G].
  intros n. destruct (D n) as (D1 & D2 & _). split; [exact D1|]. destruct (in_dec N.eq_dec n ns) as [Hi|Hi]; [now rewrite (Nof n Hi) in D2|now rewrite (New n Hi) in D2 |- *].
Qed.
