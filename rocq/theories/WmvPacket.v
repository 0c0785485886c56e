(** WmvPacket: reading packets of a WMV file, with the data of the payloads or without it. *)
From Verif Require Import Base BaseFacts SrrFacts Wmv StrmSpec Mp3Spec WmvSpec.

(** ** Fields *)
Lemma field_width w : w < 4 -> field w = N.of_nat (width w).
Proof. intros H. assert (w = 0 \/ w = 1 \/ w = 2 \/ w = 3) as [-> | [-> | [-> | ->]]] by lia; reflexivity. Qed.
Lemma field_is w v (f a r : bytes) pos : w < 4 -> fits w v -> f = a ++ le (width w) v ++ r -> pos = lenN a -> field_at w f pos = Ok v.
Proof.
  intros H F -> ->. unfold field_at. destruct (N.eqb_spec w 0) as [-> |E].
  - unfold fits in F. cbn [width] in F. change (256 ^ N.of_nat 0) with 1 in F. f_equal. lia.
  - rewrite field_width by exact H. rewrite Nat2N.id. apply unpack_app; [reflexivity|]. unfold fits in F. replace (2 ^ (8 * N.of_nat (width w))) with (256 ^ N.of_nat (width w)); [exact F|]. rewrite N.pow_mul_r. reflexivity.
Qed.
Lemma one_is n (f a r : bytes) pos : n < 256 -> f = a ++ one n ++ r -> pos = lenN a -> unpack 1 f pos = Ok n.
Proof. intros H -> ->. change (one n) with (le 1 n). apply unpack_app; [reflexivity|exact H]. Qed.
Lemma sub_is (f a x r : bytes) o n : f = a ++ x ++ r -> o = lenN a -> n = lenN x -> sub o n f = x.
Proof. intros -> -> ->. now apply sub_app_exact. Qed.
Lemma bits4 a b c d : a < 4 -> b < 4 -> c < 4 -> bits (a + 4 * b + 16 * c + 64 * d) 0 = a /\ bits (a + 4 * b + 16 * c + 64 * d) 2 = b /\ bits (a + 4 * b + 16 * c + 64 * d) 4 = c.
Proof. intros A B C. unfold bits. rewrite !N.shiftr_div_pow2. change (2 ^ 0) with 1. change (2 ^ 2) with 4. change (2 ^ 4) with 16. lia. Qed.
Lemma bits_flags m a b c d : a < 4 -> b < 4 -> c < 4 ->
  let x := b2N m + 2 * a + 8 * b + 32 * c + 128 * d in bits x 1 = a /\ bits x 3 = b /\ bits x 5 = c /\ N.odd x = m.
Proof.
  intros A B C. cbv zeta. unfold bits. rewrite !N.shiftr_div_pow2. change (2 ^ 1) with 2. change (2 ^ 3) with 8. change (2 ^ 5) with 32.
  replace (b2N m + 2 * a + 8 * b + 32 * c + 128 * d) with (b2N m + 2 * (a + 4 * b + 16 * c + 64 * d)) by lia.
  rewrite N.odd_add_mul_2. split; [destruct m; cbn [b2N]; lia|]. split; [destruct m; cbn [b2N]; lia|]. split; [destruct m; cbn [b2N]; lia|now destruct m].
Qed.

(** ** Payloads *)
Definition ypay (srs : bool) (p : piece) : pay := mkY (p_stream p) (lenN (p_head p)) (p_head p) (Z.of_N (lenN (p_data p))) (if srs then [] else p_data p).
Definition enc (srs : bool) (l : list piece) : bytes := concat (map (fun p => p_head p ++ (if srs then [] else p_data p)) l).
Lemma enc_cons srs p l : enc srs (p :: l) = p_head p ++ (if srs then [] else p_data p) ++ enc srs l. Proof. unfold enc. cbn [map concat]. now rewrite <- app_assoc. Qed.
Lemma enc_app srs a b : enc srs (a ++ b) = enc srs a ++ enc srs b. Proof. unfold enc. now rewrite map_app, concat_app. Qed.
Lemma enc_true l : enc true l = concat (map p_head l).
Proof. unfold enc. f_equal. apply map_ext. intros p. now rewrite app_nil_r. Qed.
Lemma enc_le l : lenN (enc true l) <= lenN (enc false l).
Proof. induction l as [|p l IH]; [cbn; lia|]. rewrite !enc_cons, !lenN_app. cbn [lenN]. lia. Qed.
Definition of_parts (stream : N) (h : bytes) (ds : list bytes) : list piece :=
  match ds with [] => [] | d :: ds => (stream, h ++ one (lenN d), d) :: map (fun d => (stream, one (lenN d), d)) ds end.
Definition size_of (ds : list bytes) : N := lenN (concat (map part_bytes ds)).
Lemma size_cons d ds : size_of (d :: ds) = 1 + lenN d + size_of ds. Proof. unfold size_of, part_bytes. cbn [map concat]. rewrite !lenN_app. cbn [lenN one]. lia. Qed.
Lemma of_parts_nil stream ds : of_parts stream [] ds = map (fun d => (stream, one (lenN d), d)) ds. Proof. now destruct ds. Qed.
Lemma parts_are srs stream (data : bytes) ds : forall (a h r : bytes) used len fuel, data = a ++ h ++ dropN (lenN h) (enc srs (of_parts stream h ds)) ++ r -> (ds = [] -> h = []) -> Forall (fun d => lenN d < 256) ds ->
  (used + Z.of_N (size_of ds) = len)%Z -> (length ds < fuel)%nat ->
  sub_payloads fuel srs stream data (lenN a) (lenN (a ++ h)) used len = Ok (map (ypay srs) (of_parts stream h ds), lenN (a ++ enc srs (of_parts stream h ds))).
Proof.
  induction ds as [|d ds IH]; intros a h r used len fuel E H0 F L Fu; (destruct fuel as [|fuel]; [cbn [length] in Fu; lia|]); cbn [sub_payloads].
  - rewrite (H0 eq_refl) in *. change (size_of []) with 0 in L. replace (used <? len)%Z with false by lia. replace (used =? len)%Z with true by lia. cbn [of_parts map enc concat]. reflexivity.
  - rewrite size_cons in L. replace (used <? len)%Z with true by lia. pose proof (Forall_inv F) as Fd; pose proof (Forall_inv_tail F) as F'.
    assert (Ee : enc srs (of_parts stream h (d :: ds)) = h ++ one (lenN d) ++ (if srs then [] else d) ++ enc srs (of_parts stream [] ds)) by (rewrite of_parts_nil; cbn [of_parts]; rewrite enc_cons; unfold p_head, p_data; cbn [fst snd]; now rewrite <- !app_assoc).
    assert (Ed : data = a ++ h ++ one (lenN d) ++ (if srs then [] else d) ++ enc srs (of_parts stream [] ds) ++ r) by (rewrite E, Ee, dropN_app_exact by reflexivity; now rewrite <- !app_assoc). clear E.
    rewrite (one_is (lenN d) data (a ++ h) ((if srs then [] else d) ++ enc srs (of_parts stream [] ds) ++ r)) by (assumption || reflexivity || (rewrite Ed, <- !app_assoc; reflexivity)). cbn [bind].
    set (next := if srs then _ else _). assert (Hn : next = lenN (a ++ h ++ one (lenN d) ++ (if srs then [] else d))) by (unfold next; rewrite !lenN_app; change (lenN (one (lenN d))) with 1; destruct srs; [change (lenN (@nil byte)) with 0|]; lia).
    rewrite Hn. rewrite <- (app_nil_r (a ++ h ++ one (lenN d) ++ (if srs then [] else d))) at 2.
    rewrite (IH (a ++ h ++ one (lenN d) ++ (if srs then [] else d)) [] r) by (solve [lia | assumption | reflexivity | cbn [length] in Fu; lia | rewrite Ed; cbn [app lenN]; rewrite dropN_0, <- !app_assoc; reflexivity]). cbn [bind fst snd].
    rewrite Ee. do 2 f_equal; [|rewrite !lenN_app; lia]. cbn [of_parts map]. rewrite of_parts_nil. f_equal. unfold ypay, p_stream, p_head, p_data. cbn [fst snd].
    replace (lenN (a ++ h) + 1 - lenN a) with (lenN (h ++ one (lenN d))) by (rewrite !lenN_app; change (lenN (one (lenN d))) with 1; lia). f_equal.
    + apply (sub_is data a _ ((if srs then [] else d) ++ enc srs (of_parts stream [] ds) ++ r)); [rewrite Ed, <- !app_assoc; reflexivity|reflexivity|reflexivity].
    + destruct srs; [reflexivity|]. apply (sub_is data (a ++ h ++ one (lenN d)) _ (enc false (of_parts stream [] ds) ++ r)); [rewrite Ed, <- !app_assoc; reflexivity|rewrite !lenN_app; change (lenN (one (lenN d))) with 1; lia|reflexivity].
Qed.
Section Payloads.
Variable k : packet.
Hypothesis W : pk_wrep k < 4 /\ pk_woff k < 4 /\ pk_wnum k < 4 /\ pk_wstream k < 4.
Let prop := pk_wrep k + 4 * pk_woff k + 16 * pk_wnum k + 64 * pk_wstream k.
Let Bits := bits4 (pk_wrep k) (pk_woff k) (pk_wnum k) (pk_wstream k) (proj1 W) (proj1 (proj2 W)) (proj1 (proj2 (proj2 W))).
Lemma begin_read (data a t : bytes) key stream num off rep : data = a ++ begin_of k key stream num off rep ++ t -> stream < 128 -> fits (pk_wnum k) num -> fits (pk_woff k) off -> fits (pk_wrep k) rep ->
  unpack 1 data (lenN a) = Ok (stream + 128 * b2N key) /\ field_at (bits prop 4) data (lenN a + 1) = Ok num /\ field_at (bits prop 2) data (lenN a + 1 + field (bits prop 4)) = Ok off /\
  field_at (bits prop 0) data (lenN a + 1 + field (bits prop 4) + field (bits prop 2)) = Ok rep /\
  lenN a + 1 + field (bits prop 4) + field (bits prop 2) + field (bits prop 0) = lenN (a ++ begin_of k key stream num off rep).
Proof.
  pose proof Bits as (B0 & B2 & B4). fold prop in B0, B2, B4. rewrite B0, B2, B4. pose proof W as (W1 & W2 & W3 & _). intros E Hs Hn Ho Hr. unfold begin_of in *. rewrite !field_width by assumption.
  split; [apply (one_is _ data a (le (width (pk_wnum k)) num ++ le (width (pk_woff k)) off ++ le (width (pk_wrep k)) rep ++ t)); [destruct key; cbn [b2N]; lia|rewrite E, <- !app_assoc; reflexivity|reflexivity]|].
  split; [apply (field_is _ _ data (a ++ one (stream + 128 * b2N key)) (le (width (pk_woff k)) off ++ le (width (pk_wrep k)) rep ++ t)); [assumption|assumption|rewrite E, <- !app_assoc; reflexivity|rewrite lenN_app; reflexivity]|].
  split; [apply (field_is _ _ data (a ++ one (stream + 128 * b2N key) ++ le (width (pk_wnum k)) num) (le (width (pk_wrep k)) rep ++ t)); [assumption|assumption|rewrite E, <- !app_assoc; reflexivity|rewrite !lenN_app, lenN_le; change (lenN (one (stream + 128 * b2N key))) with 1; lia]|].
  split; [apply (field_is _ _ data (a ++ one (stream + 128 * b2N key) ++ le (width (pk_wnum k)) num ++ le (width (pk_woff k)) off) t); [assumption|assumption|rewrite E, <- !app_assoc; reflexivity|rewrite !lenN_app, !lenN_le; change (lenN (one (stream + 128 * b2N key))) with 1; lia]|].
  rewrite !lenN_app, !lenN_le. change (lenN (one (stream + 128 * b2N key))) with 1. lia.
Qed.
Definition len_field (n : N) : list byte := if pk_multiple k then le 2 n else [].
Lemma len_read (data x t : bytes) n datalen : data = x ++ len_field n ++ t -> (pk_multiple k = true -> n < 2 ^ 16) -> (pk_multiple k = false -> datalen = Z.of_N (lenN x + n)) -> (Z.of_N (lenN (x ++ len_field n)) <= datalen)%Z ->
  (if pk_multiple k then if (datalen <? Z.of_N (lenN x + 2))%Z then Err ValueError else do l <- unpack 2 data (lenN x); Ok (Z.of_N l, lenN x + 2) else Ok ((datalen - Z.of_N (lenN x))%Z, lenN x))
  = Ok (Z.of_N n, lenN (x ++ len_field n)).
Proof.
  unfold len_field. intros E S D L. rewrite lenN_app in *. destruct (pk_multiple k).
  - rewrite lenN_le in *. replace (datalen <? Z.of_N (lenN x + 2))%Z with false by lia. rewrite E, unpack_app by (reflexivity || now apply S). reflexivity.
  - rewrite D by reflexivity. change (lenN (@nil byte)) with 0. do 2 f_equal; lia.
Qed.
Lemma payload_step p n srs (data a t : bytes) datalen : data = a ++ enc srs (pieces k p) ++ t -> payload_ok k p -> (Z.of_N (lenN (a ++ enc srs (pieces k p))) <= datalen)%Z ->
  (pk_multiple k = false -> a = [] /\ datalen = Z.of_N (lenN (enc false (pieces k p)))) ->
  read_payloads (S n) srs (pk_multiple k) prop data datalen (lenN a) =
  do t <- read_payloads n srs (pk_multiple k) prop data datalen (lenN (a ++ enc srs (pieces k p))); Ok (map (ypay srs) (pieces k p) ++ fst t, snd t).
Proof.
  intros E P L M. cbn [read_payloads]. destruct p as [key stream num off rep d|key stream num off delta ds].
  - destruct P as (Hs & Hn & Ho & Hr & Hrep & Hm). cbn [pieces] in *. unfold enc in *. cbn [map concat] in *. unfold p_head, p_data in *. cbn [fst snd] in *. rewrite app_nil_r in *. fold (len_field (lenN d)) in *.
    set (bg := begin_of k key stream num off (lenN rep)) in *. set (D := if srs then [] else d) in *.
    destruct (begin_read data a (rep ++ len_field (lenN d) ++ D ++ t) key stream num off (lenN rep)) as (E1 & E2 & E3 & E4 & E5); try assumption; [rewrite E; fold bg; now rewrite <- !app_assoc|]. fold bg in E5.
    rewrite !lenN_app in L. rewrite lenN_app in E5. replace (negb srs && (datalen <? Z.of_N (lenN a + 1))%Z) with false by (symmetry; apply andb_false_iff; right; lia). rewrite E1. cbn [bind].
    rewrite E2, E3, E4, E5. replace (negb srs && (datalen <? Z.of_N (lenN a + lenN bg))%Z) with false by (symmetry; apply andb_false_iff; right; lia). cbn [bind].
    replace (if 1 <? lenN rep then _ else _) with (@Ok N (lenN (a ++ bg ++ rep))).
    2: { destruct Hrep as [-> |Hrep]; [cbn [lenN N.ltb N.eqb N.compare]; rewrite app_nil_r, lenN_app; reflexivity|]. replace (1 <? lenN rep) with true by lia. replace (lenN rep <? 8) with false by lia. replace (datalen <? Z.of_N (lenN rep + (lenN a + lenN bg)))%Z with false by lia. cbn [orb].
         rewrite (sub_is data (a ++ bg) rep (len_field (lenN d) ++ D ++ t)) by (solve [reflexivity | rewrite E, <- !app_assoc; reflexivity | rewrite lenN_app; reflexivity]).
         destruct (unpack_ok 4 rep 4) as (v & Hv); [lia|]. rewrite Hv. cbn [bind]. rewrite !lenN_app. f_equal. lia. }
    cbn [bind]. rewrite (len_read data (a ++ bg ++ rep) (D ++ t) (lenN d) datalen); [|rewrite E, <- !app_assoc; reflexivity|exact Hm| |rewrite !lenN_app; lia].
    2: { intros X. destruct (M X) as (-> & ->). cbn [app lenN]. unfold len_field. rewrite X. rewrite app_nil_r, !lenN_app. lia. }
    cbn [bind]. replace (lenN rep =? 1) with false by (destruct Hrep as [-> |]; [reflexivity|lia]). rewrite N2Z.id.
    set (hd := bg ++ rep ++ len_field (lenN d)). replace (lenN ((a ++ bg ++ rep) ++ len_field (lenN d))) with (lenN (a ++ hd)) by (unfold hd; now rewrite <- !app_assoc).
    assert (E' : data = a ++ hd ++ D ++ t) by (rewrite E; unfold hd; now rewrite <- !app_assoc).
    replace (lenN (a ++ hd) - lenN a) with (lenN hd) by (rewrite lenN_app; lia). rewrite (sub_is data a hd (D ++ t) (lenN a) (lenN hd)) by (assumption || reflexivity).
    assert (Hst : (stream + 128 * b2N key) mod 128 = stream) by (destruct key; cbn [b2N]; lia). rewrite Hst.
    destruct srs.
    + cbn [negb andb bind fst snd]. unfold D, ypay, p_stream, p_head, p_data. rewrite ?app_nil_r. reflexivity.
    + rewrite (sub_is data (a ++ hd) d t (lenN (a ++ hd)) (lenN d)) by (solve [reflexivity | rewrite E'; unfold D; now rewrite <- !app_assoc]). rewrite Z.eqb_refl. cbn [negb andb bind fst snd]. unfold D, ypay, p_stream, p_head, p_data. cbn [fst snd map]. rewrite <- lenN_app, <- app_assoc. reflexivity.
  - destruct P as (Hs & Hn & Ho & Hr & Hnil & Hd & Hm).
    assert (Pc : pieces k (Parts key stream num off delta ds) = of_parts stream (begin_of k key stream num off 1 ++ [delta] ++ len_field (size_of ds)) ds) by (destruct ds as [|d ds]; [contradiction|]; cbn [pieces of_parts]; unfold len_field, size_of; now rewrite <- !app_assoc).
    rewrite Pc in *. set (bg := begin_of k key stream num off 1) in *. set (hd := bg ++ [delta] ++ len_field (size_of ds)) in *.
    assert (Eh : exists X, enc srs (of_parts stream hd ds) = hd ++ X) by (destruct ds as [|d ds]; [contradiction|]; cbn [of_parts]; rewrite enc_cons; unfold p_head; cbn [fst snd]; rewrite <- app_assoc; eauto). destruct Eh as (X & Eh).
    assert (Ef : lenN (enc false (of_parts stream hd ds)) = lenN hd + size_of ds).
    { destruct ds as [|d ds]; [contradiction|]. cbn [of_parts]. rewrite enc_cons. unfold p_head, p_data. cbn [fst snd]. rewrite !lenN_app, size_cons. change (lenN (one (lenN d))) with 1. replace (lenN (enc false (map (fun d0 => (stream, one (lenN d0), d0)) ds))) with (size_of ds); [lia|]. unfold size_of, enc. rewrite map_map. reflexivity. }
    destruct (begin_read data a ([delta] ++ len_field (size_of ds) ++ X ++ t) key stream num off 1) as (E1 & E2 & E3 & E4 & E5); try assumption; [rewrite E, Eh; unfold hd; fold bg; now rewrite <- !app_assoc|]. fold bg in E5.
    assert (L' : (Z.of_N (lenN a + lenN bg + 1) <= datalen)%Z) by (rewrite Eh in L; unfold hd in L; rewrite !lenN_app in L; change (lenN [delta]) with 1 in L; lia).
    rewrite lenN_app in E5. replace (negb srs && (datalen <? Z.of_N (lenN a + 1))%Z) with false by (symmetry; apply andb_false_iff; right; lia). rewrite E1. cbn [bind].
    rewrite E2, E3, E4, E5. replace (negb srs && (datalen <? Z.of_N (lenN a + lenN bg))%Z) with false by (symmetry; apply andb_false_iff; right; lia). cbn [bind]. change (1 <? 1) with false. change (1 =? 1) with true. cbv iota.
    replace (datalen <? Z.of_N (lenN a + lenN bg + 1))%Z with false by lia.
    destruct (unpack_ok 1 data (lenN a + lenN bg)) as (v & Hv); [rewrite E, Eh; unfold hd; rewrite !lenN_app; change (lenN [delta]) with 1; change (N.of_nat 1) with 1; lia|]. rewrite Hv. cbn [bind].
    replace (lenN a + lenN bg + 1) with (lenN (a ++ bg ++ [delta])) by (rewrite !lenN_app; change (lenN [delta]) with 1; lia).
    rewrite (len_read data (a ++ bg ++ [delta]) (X ++ t) (size_of ds) datalen); [|rewrite E, Eh; unfold hd; rewrite <- !app_assoc; reflexivity|exact Hm| |].
    2: { intros Y. destruct (M Y) as (-> & ->). rewrite Ef. unfold hd, len_field. rewrite Y. cbn [app]. rewrite !lenN_app. change (lenN [delta]) with 1. lia. }
    2: { rewrite Eh in L. unfold hd in L. rewrite !lenN_app in *. lia. }
    cbn [bind]. replace (lenN ((a ++ bg ++ [delta]) ++ len_field (size_of ds))) with (lenN (a ++ hd)) by (unfold hd; now rewrite <- !app_assoc).
    assert (Hst : (stream + 128 * b2N key) mod 128 = stream) by (destruct key; cbn [b2N]; lia). rewrite Hst.
    rewrite (parts_are srs stream data ds a hd t 0 (Z.of_N (size_of ds))); [reflexivity|rewrite E, Eh, dropN_app_exact by reflexivity; now rewrite <- !app_assoc|contradiction|exact Hd|lia|].
    (* fuel *)
    rewrite E, !app_length. assert (Y : (length ds <= length (enc srs (of_parts stream hd ds)))%nat); [|lia]. clear. destruct ds as [|d ds]; [apply Nat.le_0_l|]. cbn [of_parts]. rewrite enc_cons, !app_length. unfold p_head. cbn [fst snd]. rewrite app_length. change (length (one (lenN d))) with 1%nat. cbn [length].
    assert (Z : (length ds <= length (enc srs (map (fun d0 => (stream, one (lenN d0), d0)) ds)))%nat); [|lia]. clear hd. induction ds as [|e ds IH]; [apply Nat.le_0_l|]. cbn [map]. rewrite enc_cons, !app_length. unfold p_head. cbn [fst snd length one]. lia.
Qed.
Lemma payloads_are srs ps : forall (a r data : bytes) datalen, data = a ++ enc srs (flat_map (pieces k) ps) ++ r -> Forall (payload_ok k) ps ->
  (Z.of_N (lenN (a ++ enc srs (flat_map (pieces k) ps))) <= datalen)%Z -> (pk_multiple k = false -> ps <> [] -> a = [] /\ datalen = Z.of_N (lenN (enc false (flat_map (pieces k) ps))) /\ lenN ps = 1) ->
  read_payloads (length ps) srs (pk_multiple k) prop data datalen (lenN a) = Ok (map (ypay srs) (flat_map (pieces k) ps), lenN (a ++ enc srs (flat_map (pieces k) ps))).
Proof.
  induction ps as [|p ps IH]; intros a r data datalen E F L M; [cbn [length read_payloads flat_map map enc concat]; now rewrite app_nil_r|].
  cbn [flat_map] in *. rewrite enc_app in *. pose proof (Forall_inv F) as Fp; pose proof (Forall_inv_tail F) as F'. cbn [length]. rewrite (payload_step p (length ps) srs data a (enc srs (flat_map (pieces k) ps) ++ r)); [|rewrite E, <- !app_assoc; reflexivity|exact Fp|rewrite !lenN_app in *; lia|].
  2: { intros X. destruct (M X ltac:(discriminate)) as (Y & Z & U). rewrite lenN_cons in U. assert (V : ps = []) by (apply lenN_0; lia). rewrite V in Z. cbn [flat_map] in Z. rewrite app_nil_r in Z. now split. }
  rewrite (IH (a ++ enc srs (pieces k p)) r); [|rewrite E, <- !app_assoc; reflexivity|exact F'|rewrite <- app_assoc; exact L|].
  2: { intros X Y. destruct (M X ltac:(discriminate)) as (_ & _ & U). rewrite lenN_cons in U. destruct Y. apply lenN_0. lia. }
  cbn [bind fst snd]. now rewrite map_app, <- app_assoc.
Qed.
End Payloads.

(** ** Packets *)
Definition pk_enc (srs : bool) (k : packet) : bytes := pk_head k ++ enc srs (pk_pieces k) ++ (if srs then [] else pk_padding k).
Lemma pk_enc_false k : pk_enc false k = pk_bytes k. Proof. reflexivity. Qed.
Lemma pk_enc_true k : pk_enc true k = pk_bare k. Proof. unfold pk_enc, pk_bare. now rewrite enc_true, app_nil_r. Qed.
Definition pk_parsed (srs : bool) (k : packet) : parsed :=
  mkK (map (ypay srs) (pk_pieces k)) (Z.of_N (lenN (pk_padding k))) (Z.of_N (lenN (enc false (pk_pieces k) ++ pk_padding k))) (lenN (pk_head k)) (lenN (pk_head k ++ enc srs (pk_pieces k))).
Lemma packet_is srs k (r : bytes) : packet_ok k -> (srs = false -> r = []) -> get_packet srs (pk_enc srs k ++ r) (Z.of_N (lenN (pk_bytes k))) = Ok (pk_parsed srs k).
Proof.
  intros (He & (W1 & W2 & W3 & W4) & Wp & (F1 & F2 & F3) & T1 & T2 & Fp & Hc & Hpad) Hr.
  set (fl := b2N (pk_multiple k) + 2 * pk_wseq k + 8 * pk_wpad k + 32 * pk_wlen k + 128 * pk_top k). set (pr := pk_wrep k + 4 * pk_woff k + 16 * pk_wnum k + 64 * pk_wstream k).
  set (tl := enc srs (pk_pieces k) ++ (if srs then [] else pk_padding k) ++ r).
  set (cnt := if pk_multiple k then one (128 + lenN (pk_payloads k)) else []).
  set (A := one 0x82 ++ pk_ec k). assert (LA : lenN A = 3) by (unfold A; rewrite lenN_app, He; reflexivity).
  assert (Hh : pk_head k = A ++ one fl ++ one pr ++ le (width (pk_wlen k)) (pk_length k) ++ le (width (pk_wseq k)) (pk_seq k) ++ le (width (pk_wpad k)) (pk_padlen k) ++ le 4 (pk_time k) ++ le 2 (pk_duration k) ++ cnt) by (unfold pk_head, A, fl, pr, cnt; now rewrite <- !app_assoc).
  set (data := pk_enc srs k ++ r). assert (Ed : data = pk_head k ++ tl) by (unfold data, pk_enc, tl; now rewrite <- !app_assoc).
  assert (Bs : lenN (pk_bytes k) = lenN (pk_head k) + lenN (enc false (pk_pieces k)) + lenN (pk_padding k)) by (rewrite <- pk_enc_false; unfold pk_enc; rewrite !lenN_app; lia).
  destruct (bits_flags (pk_multiple k) (pk_wseq k) (pk_wpad k) (pk_wlen k) (pk_top k) W2 W3 W1) as (B1 & B3 & B5 & Bo). fold fl in B1, B3, B5, Bo.
  set (hl := 5 + N.of_nat (width (pk_wlen k)) + N.of_nat (width (pk_wseq k)) + N.of_nat (width (pk_wpad k))).
  assert (Lh : lenN (pk_head k) = hl + 6 + lenN cnt) by (rewrite Hh, !lenN_app, !lenN_le, LA; unfold hl; change (lenN (one fl)) with 1; change (lenN (one pr)) with 1; change (N.of_nat 4) with 4; change (N.of_nat 2) with 2; lia).
  assert (Hfl : fl < 256) by (unfold fl; destruct (pk_multiple k); cbn [b2N]; lia). assert (Hpr : pr < 256) by (unfold pr; lia).
  unfold get_packet. rewrite (one_is 0x82 data [] (pk_ec k ++ dropN 3 (pk_head k) ++ tl)); [|lia| |reflexivity].
  2: { rewrite Ed, Hh, (dropN_app_exact A) by (now rewrite LA). unfold A. rewrite <- !app_assoc. reflexivity. }
  cbn [bind]. change (0x82 =? 0x82) with true. cbn [negb]. replace (Z.of_N (lenN (pk_bytes k)) <? 5)%Z with false by lia.
  rewrite Ed, Hh, <- !app_assoc. set (t1 := one pr ++ _). rewrite (one_is fl (A ++ one fl ++ t1) A t1) by (reflexivity || exact Hfl || now rewrite LA). cbn [bind]. unfold t1.
  set (t2 := le (width (pk_wlen k)) (pk_length k) ++ _). rewrite (one_is pr (A ++ one fl ++ one pr ++ t2) (A ++ one fl) t2); [|exact Hpr|now rewrite <- !app_assoc|rewrite lenN_app, LA; reflexivity]. cbn [bind]. rewrite B1, B3, B5, Bo. rewrite !field_width by assumption.
  fold hl. replace (Z.of_N (lenN (pk_bytes k)) <? Z.of_N (hl + 6))%Z with false by lia.
  replace (negb srs && _) with false.
  2: { destruct srs; [reflexivity|]. cbn [negb andb]. symmetry. apply negb_false_iff, Z.eqb_eq. f_equal. rewrite Bs, Lh. unfold t2, tl. rewrite (Hr eq_refl). rewrite !lenN_app, !lenN_le, LA. change (lenN (one fl)) with 1. change (lenN (one pr)) with 1. change (lenN (@nil byte)) with 0. unfold hl. change (N.of_nat 4) with 4. change (N.of_nat 2) with 2. lia. }
  assert (L5 : lenN (A ++ one fl ++ one pr) = 5) by (rewrite !lenN_app, LA; reflexivity).
  unfold t2. set (t3 := le (width (pk_wseq k)) (pk_seq k) ++ _).
  rewrite (field_is _ (pk_length k) _ (A ++ one fl ++ one pr) t3); [|exact W1|exact F1|now rewrite <- !app_assoc|now rewrite L5]. cbn [bind]. unfold t3. set (t4 := le (width (pk_wpad k)) (pk_padlen k) ++ _).
  rewrite (field_is _ (pk_seq k) _ (A ++ one fl ++ one pr ++ le (width (pk_wlen k)) (pk_length k)) t4); [|exact W2|exact F2|now rewrite <- !app_assoc|rewrite !lenN_app, lenN_le, LA; change (lenN (one fl)) with 1; change (lenN (one pr)) with 1; lia]. cbn [bind]. unfold t4. set (t5 := le 4 (pk_time k) ++ _).
  rewrite (field_is _ (pk_padlen k) _ (A ++ one fl ++ one pr ++ le (width (pk_wlen k)) (pk_length k) ++ le (width (pk_wseq k)) (pk_seq k)) t5); [|exact W3|exact F3|now rewrite <- !app_assoc|rewrite !lenN_app, !lenN_le, LA; change (lenN (one fl)) with 1; change (lenN (one pr)) with 1; lia]. cbn [bind]. unfold t5.
  set (C := A ++ one fl ++ one pr ++ le (width (pk_wlen k)) (pk_length k) ++ le (width (pk_wseq k)) (pk_seq k) ++ le (width (pk_wpad k)) (pk_padlen k)).
  assert (LC : lenN C = hl) by (unfold C; rewrite !lenN_app, !lenN_le, LA; change (lenN (one fl)) with 1; change (lenN (one pr)) with 1; unfold hl; lia).
  replace (A ++ one fl ++ one pr ++ le (width (pk_wlen k)) (pk_length k) ++ le (width (pk_wseq k)) (pk_seq k) ++ le (width (pk_wpad k)) (pk_padlen k) ++ le 4 (pk_time k) ++ le 2 (pk_duration k) ++ cnt ++ tl)
    with (C ++ le 4 (pk_time k) ++ le 2 (pk_duration k) ++ cnt ++ tl) by (unfold C; now rewrite <- !app_assoc).
  rewrite (unpack_app C 4) by (exact T1 || now rewrite LC). cbn [bind]. replace (C ++ le 4 (pk_time k) ++ le 2 (pk_duration k) ++ cnt ++ tl) with ((C ++ le 4 (pk_time k)) ++ le 2 (pk_duration k) ++ cnt ++ tl) by now rewrite <- !app_assoc.
  rewrite (unpack_app (C ++ le 4 (pk_time k)) 2) by (exact T2 || (rewrite lenN_app, lenN_le, LC; reflexivity)). cbn [bind].
  set (len := if pk_wlen k =? 0 then _ else _). assert (Hlen : (len <= Z.of_N (lenN (pk_bytes k)))%Z /\ (Z.of_N (pk_padlen k) + (Z.of_N (lenN (pk_bytes k)) - len))%Z = Z.of_N (lenN (pk_padding k))) by (unfold len; destruct (pk_wlen k =? 0); lia).
  destruct Hlen as (Hl1 & Hl2). replace (Z.of_N (lenN (pk_bytes k)) <? len)%Z with false by lia. rewrite Hl2.
  set (D := (C ++ le 4 (pk_time k)) ++ le 2 (pk_duration k)). assert (LD : lenN D = hl + 6) by (unfold D; rewrite !lenN_app, !lenN_le, LC; lia).
  replace ((C ++ le 4 (pk_time k)) ++ le 2 (pk_duration k) ++ cnt ++ tl) with (D ++ cnt ++ tl) by (unfold D; now rewrite <- !app_assoc).
  replace (if pk_multiple k then _ else Ok (1, hl + 6)) with (@Ok (N * N) (lenN (pk_payloads k), lenN (pk_head k))).
  2: { rewrite Lh. unfold cnt. destruct (pk_multiple k) eqn:Em; [|rewrite Hc; cbn [lenN]; now rewrite N.add_0_r].
       unfold cnt in Lh. change (lenN (one (128 + lenN (pk_payloads k)))) with 1 in *. replace (Z.of_N (lenN (pk_bytes k)) <? Z.of_N (hl + 6 + 1))%Z with false by lia.
       rewrite (one_is (128 + lenN (pk_payloads k)) _ D tl) by (solve [lia | reflexivity | now rewrite LD]). cbn [bind]. assert (Em1 : (128 + lenN (pk_payloads k)) mod 64 = lenN (pk_payloads k)) by lia. assert (Em2 : bits (128 + lenN (pk_payloads k)) 6 = 2) by (unfold bits; rewrite N.shiftr_div_pow2; change (2 ^ 6) with 64; lia).
       rewrite Em1, Em2. replace (lenN (pk_payloads k) =? 0) with false by lia. reflexivity. }
  cbn [bind]. replace (dropN (lenN (pk_head k)) (D ++ cnt ++ tl)) with tl.
  2: { symmetry. rewrite app_assoc. apply dropN_app_exact. rewrite Lh, lenN_app, LD. reflexivity. }
  assert (Rd : (Z.of_N (lenN (pk_bytes k)) - Z.of_N (lenN (pk_head k)) - Z.of_N (lenN (pk_padding k)))%Z = Z.of_N (lenN (enc false (pk_pieces k)))) by lia. rewrite Rd.
  assert (RP : read_payloads (length (pk_payloads k)) srs (pk_multiple k) pr tl (Z.of_N (lenN (enc false (pk_pieces k)))) (lenN (@nil byte)) = Ok (map (ypay srs) (pk_pieces k), lenN ([] ++ enc srs (pk_pieces k)))).
  { apply (payloads_are k Wp srs (pk_payloads k) [] ((if srs then [] else pk_padding k) ++ r)); [reflexivity|exact Fp| |].
    - cbn [app]. fold (pk_pieces k). pose proof (enc_le (pk_pieces k)). destruct srs; lia.
    - intros X _. rewrite X in Hc. split; [reflexivity|]. split; [reflexivity|exact Hc]. }
  rewrite <- (Nat2N.id (length (pk_payloads k))), <- lenN_length in RP. change (lenN (@nil byte)) with 0 in RP. rewrite RP.
  cbn [bind fst snd app]. replace (negb srs && _) with false by (destruct srs; [reflexivity|]; cbn [negb andb]; symmetry; apply negb_false_iff, Z.eqb_eq; lia).
  unfold pk_parsed. f_equal. f_equal; [rewrite lenN_app; lia|rewrite lenN_app; lia].
Qed.
