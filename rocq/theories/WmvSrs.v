(** WmvSrs: profiling a sample, creating and loading its SRS. *)
From Verif Require Import Base BaseFacts Crc CrcFacts SrsRec SrsRecSpec SrsRecFacts Srs SrrFacts StrmFacts Avi Wmv StrmSpec Mp3Spec WmvSpec WmvPacket WmvRead.
From Verif Require AviSrs.
Import AviSrs(table, table_keys, table_ext, get_table, set_table, with_new_in, with_new_out, get_track_new, set_track_new, NoDup_snoc, td_of, tk, add_data_is, sum_set, sum_new, fd_of, Forall2_in_r).

Lemma nodup_pre (a b : list N) : NoDup (a ++ b) -> NoDup a.
Proof. induction a as [|x a IH]; intros H; [constructor|]. cbn [app] in H. inversion H as [|y l N1 N2]. constructor; [intros X; apply N1, in_or_app; now left|now apply IH]. Qed.
(** ** Streams *)
Lemma has_app n a b : has_stream n (a ++ b) <-> has_stream n a \/ has_stream n b.
Proof.
  split.
  - intros (p & H & E). apply in_app_or in H as [H|H]; [left|right]; now exists p.
  - intros [(p & H & E)|(p & H & E)]; exists p; (split; [apply in_or_app; tauto|exact E]).
Qed.
Lemma has_one n p : has_stream n [p] <-> p_stream p = n.
Proof. split; [intros (q & [<-|[]] & E); exact E|]. intros E. exists p. split; [now left|exact E]. Qed.
Lemma has_nil n : ~ has_stream n []. Proof. intros (p & [] & _). Qed.
Lemma data_app n a b : data_of n (a ++ b) = data_of n a ++ data_of n b. Proof. unfold data_of. now rewrite map_app, concat_app. Qed.
Lemma data_one n p : data_of n [p] = if p_stream p =? n then p_data p else []. Proof. unfold data_of. cbn [map concat]. now rewrite app_nil_r. Qed.
Lemma no_data n l : ~ has_stream n l -> data_of n l = [].
Proof.
  induction l as [|p l IH]; intros H; [reflexivity|]. change (p :: l) with ([p] ++ l). rewrite data_app, data_one. destruct (N.eqb_spec (p_stream p) n) as [E|_].
  - exfalso. apply H. apply (has_app n [p] l). left. now apply has_one.
  - apply IH. intros X. apply H. apply (has_app n [p] l). now right.
Qed.
Definition dec (l : list plain) : list N := map (fun p => unle (sub 48 2 (snd p)) mod 16) (filter (fun p => beqb (fst p) g_stream) l).
Lemma dec_app a b : dec (a ++ b) = dec a ++ dec b. Proof. unfold dec. now rewrite filter_app, map_app. Qed.
Lemma declared_app a b : declared (a ++ b) = declared a ++ declared b. Proof. unfold declared. now rewrite flat_map_app, filter_app, map_app. Qed.
Lemma declared_one o : declared [o] = dec (inside o). Proof. unfold declared, dec. cbn [flat_map]. now rewrite app_nil_r. Qed.
Lemma dec_lt l : Forall (fun n => n < 128) (dec l).
Proof. apply Forall_forall. intros n H. apply in_map_iff in H as (p & <- & _). lia. Qed.
Lemma pieces_lt k : packet_ok k -> Forall (fun p => p_stream p < 128) (pk_pieces k).
Proof.
  intros (_ & _ & _ & _ & _ & _ & F & _). unfold pk_pieces. apply Forall_forall. intros p H. apply in_flat_map in H as (y & Hy & H). rewrite Forall_forall in F. specialize (F y Hy). destruct y as [key stream num off rep d|key stream num off delta ds].
  - destruct H as [<-|[]]. exact (proj1 F).
  - cbn [pieces] in H. destruct ds as [|d ds]; [destruct H|]. destruct H as [<-|H]; [exact (proj1 F)|]. apply in_map_iff in H as (e & <- & _). exact (proj1 F).
Qed.
Lemma track_lt a psize n : asf_ok a psize -> is_track n a -> n < 128.
Proof.
  intros (_ & _ & _ & _ & _ & F & _) [H|(p & H & <-)].
  - pose proof (dec_lt (flat_map inside (a_before a))) as X. rewrite Forall_forall in X. exact (X n H).
  - apply in_flat_map in H as (k & Hk & H). rewrite Forall_forall in F. pose proof (pieces_lt k (F k Hk)) as X. rewrite Forall_forall in X. now apply X.
Qed.

(** ** Profiling *)
Definition lists (dl : list N) (pcs : list piece) (ns : list N) : Prop := NoDup ns /\ forall n, In n ns <-> In n dl \/ has_stream n pcs.
Definition profiled (b : bytes) (dl : list N) (pcs : list piece) (pad : bytes) (p : pstate) : Prop :=
  p_crc p = crc32 b /\ p_other p + sum_lengths (p_tracks p) = lenN b /\ p_padding p = pad /\
  exists ns, lists dl pcs ns /\ p_tracks p = table (fun n => tk n (data_of n pcs)) ns.
Definition datas (l : list piece) : N := lenN (concat (map p_data l)).
Definition heads (l : list piece) : N := lenN (concat (map p_head l)).
Lemma datas_cons p l : datas (p :: l) = lenN (p_data p) + datas l. Proof. unfold datas. cbn [map concat]. apply lenN_app. Qed.
Lemma heads_cons p l : heads (p :: l) = lenN (p_head p) + heads l. Proof. unfold heads. cbn [map concat]. apply lenN_app. Qed.
Lemma enc_len l : lenN (enc false l) = heads l + datas l.
Proof. induction l as [|p l IH]; [reflexivity|]. rewrite enc_cons, !lenN_app, IH, datas_cons, heads_cons. lia. Qed.
Lemma pays_profiled dl l : forall pcs ns sizes hs, lists dl pcs ns -> exists ns', lists dl (pcs ++ l) ns' /\
  profile_pays (map (ypay false) l) (table (fun n => tk n (data_of n pcs)) ns) sizes hs = Ok (table (fun n => tk n (data_of n (pcs ++ l))) ns', (sizes + Z.of_N (datas l))%Z, (hs + Z.of_N (heads l))%Z) /\
  sum_lengths (table (fun n => tk n (data_of n (pcs ++ l))) ns') = sum_lengths (table (fun n => tk n (data_of n pcs)) ns) + datas l.
Proof.
  induction l as [|p l IH]; intros pcs ns sizes hs (Nd & Hn).
  - exists ns. rewrite app_nil_r. split; [now split|]. split; [cbn [map profile_pays]; do 2 f_equal; [f_equal|]; cbn; lia|cbn; lia].
  - cbn [map profile_pays ypay y_stream y_data y_len y_header y_hsize]. set (n := p_stream p).
    assert (K : exists ns', lists dl (pcs ++ [p]) ns' /\ In n ns' /\ with_new n (table (fun k => tk k (data_of k pcs)) ns) = table (fun k => tk k (data_of k pcs)) ns').
    { destruct (in_dec N.eq_dec n ns) as [Hi|Hi].
      - exists ns. split; [|split; [exact Hi|now apply with_new_in]]. split; [exact Nd|]. intros k. rewrite Hn, has_app, has_one. split; [tauto|]. intros [X|[X|X]]; [tauto|tauto|]. rewrite <- Hn. unfold n in Hi. now rewrite X in Hi.
      - exists (ns ++ [n]). split; [|split; [apply in_or_app; right; now left|]].
        + split; [now apply NoDup_snoc|]. intros k. rewrite in_app_iff, Hn, has_app, has_one. cbn [In]. fold n. tauto.
        + apply with_new_out; [exact Hi|]. unfold tk, td_of, new_track. rewrite no_data by (intros X; apply Hi, Hn; now right). reflexivity. }
    destruct K as (ns1 & L1 & Hi & W). rewrite W, get_table by exact Hi. cbn [bind]. rewrite Z.eqb_refl, N.eqb_refl. cbn [negb orb]. rewrite add_data_is.
    assert (St : set_track n (tk n (data_of n pcs ++ p_data p)) (table (fun k => tk k (data_of k pcs)) ns1) = table (fun k => tk k (data_of k (pcs ++ [p]))) ns1).
    { rewrite set_table by (exact Hi || exact (proj1 L1)). apply table_ext. intros k _. rewrite data_app, data_one. fold n. destruct (N.eqb_spec k n) as [-> |Nk]; [now rewrite N.eqb_refl|]. replace (n =? k) with false by (symmetry; apply N.eqb_neq; congruence). now rewrite app_nil_r. }
    rewrite St. destruct (IH (pcs ++ [p]) ns1 (sizes + Z.of_N (lenN (p_data p)))%Z (hs + Z.of_N (lenN (p_head p)))%Z L1) as (ns2 & L2 & E2 & S2). rewrite <- app_assoc in L2, E2, S2. cbn [app] in L2, E2, S2. exists ns2. split; [exact L2|].
    split; [rewrite E2, datas_cons, heads_cons; do 2 f_equal; [f_equal|]; lia|]. rewrite S2, datas_cons.
    pose proof (sum_set n (tk n (data_of n pcs ++ p_data p)) _ _ (get_table (fun k => tk k (data_of k pcs)) ns1 n Hi)) as X. rewrite St in X. rewrite <- W, sum_new in X. cbn [tk track_of t_td td_of td_length] in X. rewrite lenN_app in X. lia.
Qed.
Lemma pk_bytes_len k : lenN (pk_bytes k) = lenN (pk_head k) + heads (pk_pieces k) + datas (pk_pieces k) + lenN (pk_padding k).
Proof. rewrite <- pk_enc_false. unfold pk_enc. rewrite !lenN_app, enc_len. lia. Qed.
Lemma packet_profiled b dl pcs pad p off k : profiled b dl pcs pad p -> exists p', profile_packet p off (pk_bytes k) (pk_parsed false k) = Ok (p', false) /\ profiled (b ++ pk_bytes k) dl (pcs ++ pk_pieces k) (pad ++ pk_padding k) p'.
Proof.
  intros (Pc & Po & Pp & ns & L & Pt). unfold profile_packet. cbn [pk_parsed k_pays k_plen k_pad]. rewrite Pt. destruct (pays_profiled dl (pk_pieces k) pcs ns 0 0 L) as (ns' & L' & E & S). rewrite E. cbn [bind].
  rewrite lenN_app, enc_len. replace (_ =? _)%Z with true by lia. cbn [negb]. eexists. split; [reflexivity|]. unfold profiled. cbn [p_crc p_other p_padding p_tracks]. rewrite Pc, Pp, N2Z.id. rewrite Pt in Po. pose proof (pk_bytes_len k) as Lk.
  split; [unfold crc32; now rewrite zcrc32_app|]. split; [rewrite S, lenN_app; lia|]. split; [|exists ns'; now split].
  f_equal. rewrite Z.add_0_l in *. unfold pk_bytes at 2. rewrite app_assoc. apply dropN_app_exact. rewrite Lk. fold (enc false (pk_pieces k)). change (concat (map (fun p0 => p_head p0 ++ p_data p0) (pk_pieces k))) with (enc false (pk_pieces k)). rewrite lenN_app, enc_len. lia.
Qed.
Definition pads (ks : list packet) : bytes := concat (map pk_padding ks).
Lemma packets_profiled dl ks : forall b pcs pad p off, profiled b dl pcs pad p -> exists p', prun profile_packet ks off p = Ok p' /\ profiled (b ++ packets_bytes ks) dl (pcs ++ flat_map pk_pieces ks) (pad ++ pads ks) p'.
Proof.
  induction ks as [|k ks IH]; intros b pcs pad p off P.
  - exists p. unfold pads. cbn [prun packets_bytes map concat flat_map]. rewrite !app_nil_r. now split.
  - cbn [prun]. destruct (packet_profiled b dl pcs pad p off k P) as (p1 & E1 & P1). rewrite E1. cbn [bind fst snd]. destruct (IH _ _ _ p1 (off + lenN (pk_bytes k)) P1) as (p2 & E2 & P2). exists p2. split; [exact E2|].
    rewrite packets_cons. unfold pads. cbn [map concat flat_map]. rewrite !app_assoc. exact P2.
Qed.
(** *** objects *)
Lemma contents_is (f a r : bytes) o : f = a ++ obj_bytes o ++ r -> obj_ok o \/ (exists p, o = Obj p /\ is_plain p) -> exists d, asf_contents f (ob o (lenN a)) = Ok (d, lenN (a ++ obj_bytes o)) /\ obj_bytes o = o_header (ob o (lenN a)) ++ d /\ (forall p, o = Obj p -> d = snd p).
Proof.
  intros E H. unfold asf_contents, o_data, read_n, read_at. destruct o as [p|six kids].
  - assert (L : lenN (fst p) = 16) by (destruct H as [H|(q & Eq & H)]; [exact (proj1 (proj1 H))|inversion Eq; subst; exact (proj1 H)]). cbn [ob o_start o_header o_size]. exists (snd p).
    assert (Lh : lenN (fst p ++ le 8 (24 + lenN (snd p))) = 24) by (rewrite lenN_app, lenN_le, L; reflexivity). rewrite Lh. replace (Z.of_N (24 + lenN (snd p)) - Z.of_N 24)%Z with (Z.of_N (lenN (snd p))) by lia.
    replace (Z.of_N (lenN (snd p)) <? -1)%Z with false by lia. replace (Z.of_N (lenN (snd p)) <? 0)%Z with false by lia. rewrite N2Z.id. cbn [obj_bytes] in *. unfold plain_bytes in *.
    rewrite (sub_is f (a ++ fst p ++ le 8 (24 + lenN (snd p))) (snd p) r) by (solve [reflexivity | rewrite E, <- !app_assoc; reflexivity | rewrite lenN_app, Lh; reflexivity]). cbn [bind].
    split; [do 2 f_equal; rewrite !lenN_app, lenN_le, L; change (N.of_nat 8) with 8; lia|]. split; [now rewrite <- app_assoc|]. intros q Eq. now inversion Eq.
  - destruct H as [(L6 & _)|(q & Eq & _)]; [|discriminate Eq]. cbn [ob o_start o_header o_size]. exists (kids_bytes kids). set (n := 30 + lenN (kids_bytes kids)) in *.
    assert (Lh : lenN (g_header ++ le 8 n ++ six) = 30) by (rewrite !lenN_app, lenN_le, len_header, L6; reflexivity). rewrite Lh. replace (Z.of_N n - Z.of_N 30)%Z with (Z.of_N (lenN (kids_bytes kids))) by (unfold n; lia).
    replace (Z.of_N (lenN (kids_bytes kids)) <? -1)%Z with false by lia. replace (Z.of_N (lenN (kids_bytes kids)) <? 0)%Z with false by lia. rewrite N2Z.id. cbn [obj_bytes] in *. fold n in E. fold n.
    rewrite (sub_is f (a ++ g_header ++ le 8 n ++ six) (kids_bytes kids) r) by (solve [reflexivity | rewrite E, <- !app_assoc; reflexivity | rewrite lenN_app, Lh; reflexivity]). cbn [bind].
    split; [do 2 f_equal; rewrite !lenN_app, lenN_le, len_header, L6; change (N.of_nat 8) with 8; lia|]. split; [now rewrite <- !app_assoc|discriminate].
Qed.
Lemma obj_pos o : obj_ok o -> 24 <= lenN (obj_bytes o).
Proof.
  destruct o as [p|six kids].
  - intros ((L & _) & _). cbn [obj_bytes]. unfold plain_bytes. rewrite !lenN_app, lenN_le, L. change (N.of_nat 8) with 8. lia.
  - intros (L & _). cbn [obj_bytes]. rewrite !lenN_app, lenN_le, len_header. change (N.of_nat 8) with 8. lia.
Qed.
Lemma guid_not g p pos : fst p <> g -> guid_is g (ob (Obj p) pos) = false.
Proof. intros H. unfold guid_is. now apply beqb_not. Qed.
Lemma plain_profiled (f a r : bytes) pl dl pcs pad p : f = a ++ plain_bytes pl ++ r -> plain_ok pl -> profiled a dl pcs pad p -> NoDup (dl ++ dec [pl]) -> (pcs = [] \/ dec [pl] = []) ->
  exists p', profile_step f p (ob (Obj pl) (lenN a)) = Ok (p', lenN (a ++ plain_bytes pl)) /\ profiled (a ++ plain_bytes pl) (dl ++ dec [pl]) pcs pad p'.
Proof.
  intros E H (Pc & Po & Pp & ns & (Nd & Hn) & Pt) D Pd. destruct (contents_is f a r (Obj pl) E) as (d & Ec & Eb & Ed); [right; exists pl; split; [reflexivity|now apply plain_is]|]. specialize (Ed pl eq_refl). subst d.
  destruct H as (L & H1 & H2 & H3 & H4 & H5). unfold profile_step. rewrite is_header, is_data, is_stream, is_file, (guid_not g_header pl), (guid_not g_data pl) by assumption. cbn [p_tracks p_other p_crc p_padding]. rewrite Ec. cbn [bind fst snd].
  assert (Eh : o_header (ob (Obj pl) (lenN a)) ++ snd pl = plain_bytes pl) by (rewrite <- Eb; reflexivity).
  unfold guid_is. change (o_guid (ob (Obj pl) (lenN a))) with (fst pl). set (hd := o_header (ob (Obj pl) (lenN a))) in *.
  assert (Fo : (if beqb (fst pl) g_file then unpack 8 (snd pl) 16 else Ok 0) = Ok (if beqb (fst pl) g_file then unle (sub 16 8 (snd pl)) else 0)).
  { destruct (beqb (fst pl) g_file) eqn:X; [|reflexivity]. apply beqb_eq in X. specialize (H5 X). unfold unpack. rewrite lenN_sub. replace (N.min (N.of_nat 8) (lenN (snd pl) - 16) =? N.of_nat 8) with true by lia. reflexivity. }
  assert (Fin : forall ts, sum_lengths ts = sum_lengths (p_tracks p) -> (exists ns', lists (dl ++ dec [pl]) pcs ns' /\ ts = table (fun n => tk n (data_of n pcs)) ns') ->
    profiled (a ++ plain_bytes pl) (dl ++ dec [pl]) pcs pad (mkP ts (p_other p + lenN hd + lenN (snd pl)) (zcrc32 (snd pl) (zcrc32 hd (p_crc p))) (p_padding p))).
  { intros ts Hs Ht. unfold profiled. cbn [p_crc p_other p_padding p_tracks]. split; [rewrite Pc, <- zcrc32_app, Eh; unfold crc32; now rewrite zcrc32_app|]. split; [rewrite Hs, lenN_app, <- Eh, lenN_app; lia|]. now split. }
  assert (D1 : dec [pl] = if beqb (fst pl) g_stream then [unle (sub 48 2 (snd pl)) mod 16] else []) by (unfold dec; cbn [filter]; now destruct (beqb (fst pl) g_stream)).
  destruct (beqb (fst pl) g_stream) eqn:X.
  - apply beqb_eq in X. specialize (H4 X). unfold profile_stream. unfold unpack at 1. rewrite lenN_sub. replace (N.min (N.of_nat 2) (lenN (snd pl) - 48) =? N.of_nat 2) with true by lia. cbn [bind]. change (N.of_nat 2) with 2. set (i := unle (sub 48 2 (snd pl)) mod 16) in *.
    assert (pcs = []) by (destruct Pd as [Pd|Pd]; [exact Pd|rewrite D1 in Pd; discriminate Pd]). subst pcs.
    assert (Hi : ~ In i ns) by (rewrite Hn; rewrite D1 in D; apply NoDup_remove_2 in D; rewrite app_nil_r in D; intros [Y|Y]; [contradiction|now apply (has_nil i)]).
    destruct (get_track_new i (p_tracks p)) as (e & Ge); [now rewrite Pt, table_keys|]. rewrite Ge. cbn [bind]. rewrite Fo. cbn [bind]. eexists. split; [reflexivity|]. apply Fin.
    + pose proof (sum_new i (p_tracks p)) as Y. unfold with_new in Y. now rewrite Ge in Y.
    + exists (ns ++ [i]). split.
      * split; [now apply NoDup_snoc|]. intros n. rewrite in_app_iff, Hn, in_app_iff, D1. cbn [In]. tauto.
      * rewrite Pt, set_track_new by now rewrite table_keys. unfold table. rewrite map_app. reflexivity.
  - cbn [bind]. rewrite Fo. cbn [bind]. eexists. split; [reflexivity|]. apply Fin; [reflexivity|]. exists ns. rewrite D1, app_nil_r. now split.
Qed.
Lemma obj_profiled (f a r : bytes) o dl pcs pad p : f = a ++ obj_bytes o ++ r -> obj_ok o -> profiled a dl pcs pad p -> NoDup (dl ++ dec (inside o)) -> (pcs = [] \/ dec (inside o) = []) ->
  exists p', reach Sample never (profile_step f) f (lenN a, p) (lenN (a ++ obj_bytes o), p') /\ profiled (a ++ obj_bytes o) (dl ++ dec (inside o)) pcs pad p'.
Proof.
  intros E H P D Pd. assert (Lf : lenN f = lenN a + lenN (obj_bytes o) + lenN r) by (rewrite E, !lenN_app; lia). pose proof (obj_pos o H) as Lo. destruct o as [pl|six kids].
  - destruct (plain_profiled f a r pl dl pcs pad p E (proj1 H) P D Pd) as (p' & Es & P'). exists p'. split; [|exact P'].
    apply (reach_one _ _ _ _ _ _ (ob (Obj pl) (lenN a))); [apply (next_obj _ f a r); assumption|reflexivity|exact Es|rewrite lenN_app; lia].
  - cbn [obj_bytes inside] in *. set (n := 30 + lenN (kids_bytes kids)) in *. set (hd := g_header ++ le 8 n ++ six). destruct H as (L6 & Fk & Hs).
    assert (Eh : g_header ++ le 8 n ++ six ++ kids_bytes kids = hd ++ kids_bytes kids) by (unfold hd; now rewrite <- !app_assoc). rewrite Eh in *.
    assert (Lh : lenN hd = 30) by (unfold hd; rewrite !lenN_app, lenN_le, len_header, L6; reflexivity).
    set (p1 := mkP (p_tracks p) (p_other p + lenN hd) (zcrc32 hd (p_crc p)) (p_padding p)).
    assert (P1 : profiled (a ++ hd) dl pcs pad p1) by (destruct P as (Pc & Po & Pp & ns & L & Pt); unfold p1, profiled; cbn [p_crc p_other p_padding p_tracks]; split; [rewrite Pc; unfold crc32; now rewrite zcrc32_app|]; split; [rewrite lenN_app; lia|]; split; [exact Pp|now exists ns]).
    assert (R1 : reach Sample never (profile_step f) f (lenN a, p) (lenN (a ++ hd), p1)).
    { apply (reach_one _ _ _ _ _ _ (ob (Head six kids) (lenN a))); [apply (next_obj _ f a r); [cbn [obj_bytes]; fold n; now rewrite Eh|now split]|reflexivity| |rewrite lenN_app in *; lia].
      unfold profile_step. rewrite is_header. unfold guid_is. change (o_guid (ob (Head six kids) (lenN a))) with g_header. rewrite beqb_refl. unfold o_data. cbn [ob o_start o_header]. fold n. fold hd. now rewrite <- lenN_app. }
    destruct (reach_list Sample never (profile_step f) f plain_bytes (fun d s => profiled (a ++ hd ++ kids_bytes d) (dl ++ dec d) pcs pad s) kids (a ++ hd) p1) as (p2 & R2 & P2).
    + intros d pl t s Ek Pk. assert (Hpl : plain_ok pl) by (rewrite Forall_forall in Fk; apply Fk; rewrite Ek; apply in_elt).
      assert (Ef : f = ((a ++ hd) ++ kids_bytes d) ++ plain_bytes pl ++ (kids_bytes t ++ r)) by (rewrite E, Ek; unfold kids_bytes; rewrite map_app, concat_app; cbn [map concat]; now rewrite <- !app_assoc).
      fold (kids_bytes d). rewrite app_assoc in Pk. destruct (plain_profiled f ((a ++ hd) ++ kids_bytes d) (kids_bytes t ++ r) pl (dl ++ dec d) pcs pad s Ef Hpl Pk) as (s' & Es & Ps).
      * rewrite Ek in D. change (pl :: t) with ([pl] ++ t) in D. rewrite !dec_app, !app_assoc in D. exact (nodup_pre _ _ D).
      * destruct Pd as [Pd|Pd]; [now left|right]. rewrite Ek in Pd. change (pl :: t) with ([pl] ++ t) in Pd. rewrite !dec_app in Pd. apply app_eq_nil in Pd as (_ & Pd). now apply app_eq_nil in Pd as (Pd & _).
      * exists s'. split.
        -- rewrite (app_assoc (a ++ hd)). apply (reach_one _ _ _ _ _ _ (ob (Obj pl) (lenN ((a ++ hd) ++ kids_bytes d)))); [apply (next_plain _ _ _ (kids_bytes t ++ r)); [exact Ef|now apply plain_is]|reflexivity|exact Es|].
           assert (X : lenN f = lenN (((a ++ hd) ++ kids_bytes d) ++ plain_bytes pl) + lenN (kids_bytes t ++ r)) by (rewrite Ef, !lenN_app; lia). split; [|lia]. rewrite (lenN_app ((a ++ hd) ++ kids_bytes d)). unfold plain_bytes. rewrite !lenN_app, lenN_le. change (N.of_nat 8) with 8. lia.
        -- unfold kids_bytes. rewrite map_app, concat_app, dec_app. cbn [map concat]. rewrite app_nil_r. unfold kids_bytes in Ps. rewrite <- !app_assoc in *. exact Ps.
    + cbn [kids_bytes map concat]. rewrite !app_nil_r. exact P1.
    + exists p2. fold (kids_bytes kids) in R2. split; [eapply reach_trans; [exact R1|]; now rewrite app_assoc|exact P2].
Qed.
Lemma objs_app a b : objs_bytes (a ++ b) = objs_bytes a ++ objs_bytes b. Proof. unfold objs_bytes. now rewrite map_app, concat_app. Qed.
Lemma objs_snoc a o : objs_bytes (a ++ [o]) = objs_bytes a ++ obj_bytes o. Proof. rewrite objs_app. unfold objs_bytes at 2. cbn [map concat]. now rewrite app_nil_r. Qed.
Lemma objs_cons o b : objs_bytes (o :: b) = obj_bytes o ++ objs_bytes b. Proof. reflexivity. Qed.
Lemma objs_profiled (f a r : bytes) os dl pcs pad p : f = a ++ objs_bytes os ++ r -> Forall obj_ok os -> profiled a dl pcs pad p -> NoDup (dl ++ declared os) -> (pcs = [] \/ declared os = []) ->
  exists p', reach Sample never (profile_step f) f (lenN a, p) (lenN (a ++ objs_bytes os), p') /\ profiled (a ++ objs_bytes os) (dl ++ declared os) pcs pad p'.
Proof.
  intros E F P D Pd. destruct (reach_list Sample never (profile_step f) f obj_bytes (fun d s => profiled (a ++ objs_bytes d) (dl ++ declared d) pcs pad s) os a p) as (p' & R & P').
  - intros d o t s Eo Ps. assert (Ho : obj_ok o) by (rewrite Forall_forall in F; apply F; rewrite Eo; apply in_elt). assert (Ef : f = (a ++ objs_bytes d) ++ obj_bytes o ++ (objs_bytes t ++ r)) by (rewrite E, Eo, objs_app, objs_cons; now rewrite <- !app_assoc).
    rewrite Eo in D, Pd. change (o :: t) with ([o] ++ t) in D, Pd. rewrite !declared_app, declared_one in D, Pd. destruct (obj_profiled f (a ++ objs_bytes d) (objs_bytes t ++ r) o (dl ++ declared d) pcs pad s Ef Ho Ps) as (s' & Rs & Ps').
    + rewrite !app_assoc in D. exact (nodup_pre _ _ D).
    + destruct Pd as [Pd|Pd]; [now left|right]. apply app_eq_nil in Pd as (_ & Pd). now apply app_eq_nil in Pd as (Pd & _).
    + exists s'. fold (objs_bytes d). split; [now rewrite app_assoc|]. rewrite objs_snoc, declared_app, declared_one, !app_assoc. exact Ps'.
  - cbn [objs_bytes map concat declared flat_map filter]. rewrite !app_nil_r. exact P.
  - exists p'. now split.
Qed.
Section Sample.
Variables (a : asf) (psize : N).
Hypothesis Ok_ : asf_ok a psize.
Let count := lenN (a_packets a).
Let size := 50 + lenN (packets_bytes (a_packets a)).
Definition dh : bytes := dhead size (a_id a) count (a_two a).
Lemma dh_is : data_head a = dh. Proof. reflexivity. Qed.
Lemma dh_len : lenN dh = 50. Proof. apply len_dhead; apply Ok_. Qed.
Lemma size_is : size = 50 + psize * count. Proof. unfold size. f_equal. apply packets_len. apply Ok_. Qed.
Lemma size_lt : size < 2 ^ 64. Proof. apply Ok_. Qed.
Lemma count_pos : count <> 0. Proof. intros X. assert (Y : a_packets a <> []) by apply Ok_. apply Y, lenN_0, X. Qed.
Lemma psize_pos : 0 < psize.
Proof. destruct Ok_ as (_ & _ & _ & _ & N0 & _ & L & _). destruct (a_packets a) as [|k ks]; [contradiction|]. rewrite <- (Forall_inv L). apply pk_size_pos. Qed.
Lemma count_le : count <= lenN (packets_bytes (a_packets a)).
Proof. rewrite (packets_len (a_packets a) psize) by apply Ok_. fold count. pose proof psize_pos. nia. Qed.
Lemma count_lt : count < 2 ^ 64. Proof. pose proof count_le. pose proof size_lt. unfold size in *. lia. Qed.
Lemma dh_count : packet_count dh = Ok count. Proof. apply count_is; [apply Ok_|apply count_lt]. Qed.
Lemma dh_psize : packet_size dh size count = Ok (Z.of_N psize). Proof. apply psize_is; [apply Ok_|apply Ok_|apply count_pos|apply size_is]. Qed.
Definition dob (pos : N) : object := mkO g_data size size dh pos.
Lemma next_data m (f x r : bytes) : m <> Stored -> f = x ++ dh ++ r -> asf_next m f (lenN x) = Ok (Some (dob (lenN x))).
Proof. intros Hm E. unfold dh in E. rewrite (next_dhead m f x size (a_id a) count (a_two a) r E) by (apply Ok_ || exact size_lt). destruct m; [reflexivity|reflexivity|contradiction]. Qed.
Lemma dob_data x : o_data (dob (lenN x)) = lenN (x ++ dh). Proof. unfold o_data. cbn [dob o_start o_header]. now rewrite lenN_app. Qed.
Lemma dob_is pos : guid_is DATA_OBJECT (dob pos) = true. Proof. unfold guid_is. rewrite is_data. cbn [dob o_guid]. apply beqb_refl. Qed.
Lemma dob_skip x : asf_skip (dob (lenN x)) = lenN (x ++ dh ++ packets_bytes (a_packets a)). Proof. unfold asf_skip. cbn [dob o_start o_size]. rewrite !lenN_app, dh_len. unfold size. lia. Qed.
Lemma dob_read x : all_read (dob (lenN x)) (Z.of_N psize) count = Ok (lenN (x ++ dh ++ packets_bytes (a_packets a))).
Proof. unfold all_read. rewrite dob_data, dob_skip. rewrite !lenN_app, dh_len. rewrite (packets_len (a_packets a) psize) by apply Ok_. fold count. replace (_ =? _)%Z with true by lia. reflexivity. Qed.
Lemma run_packets {S} exact (act : S -> N -> bytes -> parsed -> result (S * bool)) (f x r : bytes) s : f = x ++ dh ++ packets_bytes (a_packets a) ++ r ->
  packets (1 + length f) exact act f (Z.of_N psize) count (o_data (dob (lenN x))) s = prun act (a_packets a) (lenN (x ++ dh)) s.
Proof.
  intros E. rewrite dob_data. unfold count. apply packets_run with (r := r); [apply Ok_|apply Ok_|rewrite E, <- !app_assoc; reflexivity|]. pose proof count_le as C. unfold count in C. rewrite !lenN_length in C. rewrite E, !app_length. lia.
Qed.
Lemma profile_is name : NoDup (declared (a_before a)) -> declared (a_after a) = [] -> exists ns, lists (declared (a_before a)) (pieces_of a) ns /\
  wmv_profile name (file_of a) = Ok (fd_of name (file_of a), table (fun n => tk n (data_of n (pieces_of a))) ns, pads (a_packets a)).
Proof.
  intros Db Da. set (f := file_of a). set (x := objs_bytes (a_before a)). set (b := packets_bytes (a_packets a)). set (y := objs_bytes (a_after a)).
  assert (Ef : f = x ++ dh ++ b ++ y) by reflexivity. assert (Lf : lenN f = lenN (x ++ dh ++ b) + lenN y) by (rewrite Ef, !lenN_app; lia).
  destruct (objs_profiled f [] (dh ++ b ++ y) (a_before a) [] [] [] (mkP [] 0 0 [])) as (p1 & R1 & P1); [exact Ef|apply Ok_| |exact Db|now left|].
  { unfold profiled. cbn [p_crc p_other p_padding p_tracks]. split; [reflexivity|]. split; [reflexivity|]. split; [reflexivity|]. exists []. split; [|reflexivity]. split; [constructor|]. intros n. split; [intros []|intros [[]|H]; now apply (has_nil n)]. }
  cbn [app] in R1, P1. fold x in R1, P1. change (lenN (@nil byte)) with 0 in R1.
  assert (P2 : profiled (x ++ dh) (declared (a_before a)) [] [] (mkP (p_tracks p1) (p_other p1 + lenN dh) (zcrc32 dh (p_crc p1)) [])).
  { destruct P1 as (Pc & Po & Pp & ns & L & Pt). unfold profiled. cbn [p_crc p_other p_padding p_tracks]. split; [rewrite Pc; unfold crc32; now rewrite zcrc32_app|]. split; [rewrite lenN_app; lia|]. split; [reflexivity|now exists ns]. }
  destruct (packets_profiled (declared (a_before a)) (a_packets a) (x ++ dh) [] [] _ (lenN (x ++ dh)) P2) as (p3 & E3 & P3). cbn [app] in P3. fold b in P3. fold (pieces_of a) in P3.
  assert (R2 : reach Sample never (profile_step f) f (lenN x, p1) (lenN (x ++ dh ++ b), p3)).
  { apply (reach_one _ _ _ _ _ _ (dob (lenN x))); [apply (next_data Sample f x (b ++ y)); [discriminate|exact Ef]|reflexivity| |rewrite !lenN_app, dh_len in *; lia].
    unfold profile_step. unfold guid_is at 1. rewrite is_header. change (o_guid (dob (lenN x))) with g_data. assert (X : beqb g_data g_header = false) by (vm_compute; reflexivity). rewrite X, dob_is.
    change (o_header (dob (lenN x))) with dh. change (o_size (dob (lenN x))) with size. rewrite dh_count. cbn [bind]. rewrite dh_psize. cbn [bind p_tracks p_other p_crc]. rewrite (run_packets _ _ f x y _ Ef). rewrite E3. cbn [bind]. rewrite dob_read. reflexivity. }
  rewrite <- app_assoc in P3. destruct (objs_profiled f (x ++ dh ++ b) [] (a_after a) (declared (a_before a)) (pieces_of a) (pads (a_packets a)) p3) as (p4 & R4 & P4); [rewrite Ef, app_nil_r; fold y; now rewrite <- !app_assoc|apply Ok_|exact P3|now rewrite Da, app_nil_r|now right|].
  fold y in R4, P4. rewrite Da, app_nil_r in P4.
  assert (Ef2 : (x ++ dh ++ b) ++ y = f) by (rewrite Ef; now rewrite <- !app_assoc). rewrite Ef2 in R4, P4.
  unfold wmv_profile. rewrite (reach_end Sample never (profile_step f) f (mkP [] 0 0 []) (lenN f) p4); [|eapply reach_trans; [exact R1|]; eapply reach_trans; [exact R2|exact R4]|apply (next_end Sample f f []); [now rewrite app_nil_r|reflexivity]].
  destruct P4 as (Pc & Po & Pp & ns & L & Pt). cbn [bind]. rewrite Po, N.eqb_refl, Pc, Pt, Pp. exists ns. split; [exact L|reflexivity].
Qed.

(** ** Creating *)
Lemma create_run ks : forall off out, prun create_packet ks off out = Ok (out ++ bares ks).
Proof.
  induction ks as [|k ks IH]; intros off out; [cbn; now rewrite app_nil_r|]. cbn [prun]. unfold create_packet at 1. cbn [pk_parsed k_hlen k_pays bind fst snd]. rewrite IH, bares_cons. f_equal. rewrite <- !app_assoc. f_equal. rewrite app_assoc. f_equal.
  unfold pk_bytes at 1. rewrite takeN_app_exact by reflexivity. unfold pk_bare. f_equal. f_equal. rewrite map_map. reflexivity.
Qed.
Lemma create_objs ap fd ts pad (f x r : bytes) os out : f = x ++ objs_bytes os ++ r -> Forall obj_ok os -> reach Main never (create_step ap fd ts pad f) f (lenN x, out) (lenN (x ++ objs_bytes os), out ++ objs_bytes os).
Proof.
  intros E F. destruct (reach_list Main never (create_step ap fd ts pad f) f obj_bytes (fun d s => s = out ++ objs_bytes d) os x out) as (s' & R & ->); [|cbn; now rewrite app_nil_r|exact R].
  intros d o t s Eo ->. assert (Ho : obj_ok o) by (rewrite Forall_forall in F; apply F; rewrite Eo; apply in_elt). assert (Ef : f = (x ++ objs_bytes d) ++ obj_bytes o ++ (objs_bytes t ++ r)) by (rewrite E, Eo, objs_app, objs_cons; now rewrite <- !app_assoc).
  exists (out ++ objs_bytes (d ++ [o])). split; [|reflexivity]. fold (objs_bytes d). rewrite (app_assoc x). destruct (contents_is f _ _ o Ef (or_introl Ho)) as (c & Ec & Eb & _). pose proof (obj_pos o Ho).
  apply (reach_one _ _ _ _ _ _ (ob o (lenN (x ++ objs_bytes d)))); [apply (next_obj _ _ _ _ _ Ef Ho)|reflexivity| |rewrite Ef, !lenN_app; lia].
  unfold create_step. replace (guid_is DATA_OBJECT (ob o (lenN (x ++ objs_bytes d)))) with false.
  - rewrite Ec. cbn [bind fst snd]. do 2 f_equal. rewrite objs_snoc. rewrite <- !app_assoc. now rewrite <- Eb.
  - symmetry. unfold guid_is. rewrite is_data. destruct o as [p|six kids]; [apply beqb_not; apply Ho|]. vm_compute. reflexivity.
Qed.
Definition srs_file (xs : bytes) : bytes := objs_bytes (a_before a) ++ dh ++ bares (a_packets a) ++ xs ++ objs_bytes (a_after a).
Lemma create_is ap fd ts pad : asf_run Main never (create_step ap fd ts pad (file_of a)) (file_of a) [] = do xs <- srs_objects ap fd ts pad; Ok (srs_file xs).
Proof.
  set (f := file_of a). set (x := objs_bytes (a_before a)). set (b := packets_bytes (a_packets a)). set (y := objs_bytes (a_after a)).
  assert (Ef : f = x ++ dh ++ b ++ y) by reflexivity. assert (Lf : lenN f = lenN (x ++ dh ++ b) + lenN y) by (rewrite Ef, !lenN_app; lia).
  pose proof (create_objs ap fd ts pad f [] (dh ++ b ++ y) (a_before a) [] Ef (proj1 Ok_)) as R1. cbn [app] in R1. fold x in R1. change (lenN (@nil byte)) with 0 in R1.
  assert (Nx : asf_next Main f (lenN x) = Ok (Some (dob (lenN x)))) by (apply (next_data Main f x (b ++ y)); [discriminate|exact Ef]).
  assert (St : create_step ap fd ts pad f x (dob (lenN x)) = do xs <- srs_objects ap fd ts pad; Ok ((x ++ dh ++ bares (a_packets a)) ++ xs, lenN (x ++ dh ++ b))).
  { unfold create_step. rewrite dob_is. change (o_header (dob (lenN x))) with dh. change (o_size (dob (lenN x))) with size. rewrite dh_count. cbn [bind]. rewrite dh_psize. cbn [bind]. rewrite (run_packets _ _ f x y _ Ef), create_run. cbn [bind]. rewrite dob_read. destruct (srs_objects ap fd ts pad); [|reflexivity]. cbn [bind]. now rewrite <- !app_assoc. }
  destruct (srs_objects ap fd ts pad) as [xs|e]; cbn [bind] in *; [|exact (reach_err _ _ _ _ _ _ _ _ _ R1 Nx eq_refl St)].
  pose proof (create_objs ap fd ts pad f (x ++ dh ++ b) [] (a_after a) ((x ++ dh ++ bares (a_packets a)) ++ xs)) as R3. fold y in R3. rewrite app_nil_r in R3. assert (Ef2 : f = (x ++ dh ++ b) ++ y) by (rewrite Ef; now rewrite <- !app_assoc). specialize (R3 Ef2 (proj1 (proj2 Ok_))). rewrite <- Ef2 in R3.
  replace (srs_file xs) with (((x ++ dh ++ bares (a_packets a)) ++ xs) ++ y) by (unfold srs_file; now rewrite <- !app_assoc).
  apply (reach_end Main never _ f [] (lenN f)); [|apply (next_end Main f f []); [now rewrite app_nil_r|reflexivity]]. eapply reach_trans; [exact R1|]. eapply reach_trans; [|exact R3].
  apply (reach_one _ _ _ _ _ _ (dob (lenN x))); [exact Nx|reflexivity|exact St|rewrite !lenN_app, dh_len in *; lia].
Qed.
End Sample.
