(** WmvRead: reading the objects of a WMV file and its packets. *)
From Verif Require Import Base BaseFacts SrrFacts Srs Wmv StrmSpec Mp3Spec WmvSpec WmvPacket.

(** ** GUIDs *)
Lemma is_header : HEADER_OBJECT = g_header. Proof. vm_compute. reflexivity. Qed.
Lemma is_data : DATA_OBJECT = g_data. Proof. vm_compute. reflexivity. Qed.
Lemma is_stream : STREAM_OBJECT = g_stream. Proof. vm_compute. reflexivity. Qed.
Lemma is_file : FILE_OBJECT = g_file. Proof. vm_compute. reflexivity. Qed.
Lemma len_guid a b c d e : lenN (guid a b c d e) = 16. Proof. unfold guid. rewrite !lenN_app, !lenN_le, !lenN_be. reflexivity. Qed.
Lemma len_header : lenN g_header = 16. Proof. apply len_guid. Qed.
Lemma len_data : lenN g_data = 16. Proof. apply len_guid. Qed.
Lemma beqb_not (a b : bytes) : a <> b -> beqb a b = false.
Proof. intros H. apply not_true_is_false. now rewrite beqb_eq. Qed.
Global Opaque g_header g_data g_stream g_file.

(** ** The loop *)
Section Loop.
Context {S : Type}.
Variables (m : mode) (stop : S -> bool) (act : S -> object -> result (S * N)) (f : bytes).
Definition reach (x y : N * S) : Prop := forall fuel, lenN f - fst x < N.of_nat fuel ->
  exists fuel', lenN f - fst y < N.of_nat fuel' /\ asf_loop fuel m stop act f (fst x) (snd x) = asf_loop fuel' m stop act f (fst y) (snd y).
Lemma reach_refl x : reach x x. Proof. intros fuel H. now exists fuel. Qed.
Lemma reach_trans x y z : reach x y -> reach y z -> reach x z.
Proof. intros A B fuel H. destruct (A fuel H) as (g & Hg & ->). apply B. exact Hg. Qed.
Lemma reach_one pos s o s' pos' : asf_next m f pos = Ok (Some o) -> stop s = false -> act s o = Ok (s', pos') -> pos < pos' <= lenN f -> reach (pos, s) (pos', s').
Proof.
  intros E1 E2 E3 L fuel H. cbn [fst snd] in *. destruct fuel as [|fuel]; [lia|]. exists fuel. split; [lia|]. cbn [asf_loop]. rewrite E1. cbn [bind]. rewrite E2, E3. reflexivity.
Qed.
Lemma reach_list {U} (ub : U -> bytes) (P : list U -> S -> Prop) us : forall (a : bytes) s,
  (forall d u t s, us = d ++ u :: t -> P d s -> exists s', reach (lenN (a ++ concat (map ub d)), s) (lenN (a ++ concat (map ub d) ++ ub u), s') /\ P (d ++ [u]) s') ->
  P [] s -> exists s', reach (lenN a, s) (lenN (a ++ concat (map ub us)), s') /\ P us s'.
Proof.
  revert P. induction us as [|u us IH]; intros P a s St P0.
  - exists s. cbn [map concat]. rewrite app_nil_r. split; [apply reach_refl|exact P0].
  - destruct (St [] u us s eq_refl P0) as (s1 & R1 & P1). cbn [map concat app] in R1, P1. rewrite app_nil_r in R1.
    destruct (IH (fun d => P (u :: d)) (a ++ ub u) s1) as (s2 & R2 & P2).
    + intros d v t s0 E Pd. destruct (St (u :: d) v t s0) as (s3 & R3 & P3); [now rewrite E|exact Pd|]. exists s3. cbn [map concat app] in *. rewrite <- !app_assoc in *. now split.
    + exact P1.
    + exists s2. split; [|exact P2]. cbn [map concat]. rewrite app_assoc. eapply reach_trans; [exact R1|exact R2].
Qed.
Lemma reach_end s pos s' : reach (0, s) (pos, s') -> asf_next m f pos = Ok None -> asf_run m stop act f s = Ok s'.
Proof.
  intros R E. unfold asf_run. destruct (R (1 + length f)%nat) as (fuel & Hf & Ef); [cbn [fst]; rewrite lenN_length; lia|]. cbn [fst snd] in *. rewrite Ef. destruct fuel as [|fuel]; [lia|]. cbn [asf_loop]. rewrite E. reflexivity.
Qed.
Lemma reach_stop s pos s' o : reach (0, s) (pos, s') -> asf_next m f pos = Ok o -> stop s' = true -> asf_run m stop act f s = Ok s'.
Proof.
  intros R E St. unfold asf_run. destruct (R (1 + length f)%nat) as (fuel & Hf & Ef); [cbn [fst]; rewrite lenN_length; lia|]. cbn [fst snd] in *. rewrite Ef. destruct fuel as [|fuel]; [lia|]. cbn [asf_loop]. rewrite E. cbn [bind]. rewrite St. now destruct o.
Qed.
Lemma reach_err s pos s' o e : reach (0, s) (pos, s') -> asf_next m f pos = Ok (Some o) -> stop s' = false -> act s' o = Err e -> asf_run m stop act f s = Err e.
Proof.
  intros R E St A. unfold asf_run. destruct (R (1 + length f)%nat) as (fuel & Hf & Ef); [cbn [fst]; rewrite lenN_length; lia|]. cbn [fst snd] in *. rewrite Ef. destruct fuel as [|fuel]; [lia|]. cbn [asf_loop]. rewrite E. cbn [bind]. rewrite St, A. reflexivity.
Qed.
End Loop.

(** ** Objects *)
Definition ob (o : obj) (pos : N) : object :=
  match o with
  | Obj p => mkO (fst p) (24 + lenN (snd p)) (24 + lenN (snd p)) (fst p ++ le 8 (24 + lenN (snd p))) pos
  | Head six kids => mkO g_header (30 + lenN (kids_bytes kids)) (30 + lenN (kids_bytes kids)) (g_header ++ le 8 (30 + lenN (kids_bytes kids)) ++ six) pos
  end.
(** an object that is neither the header nor data *)
Definition is_plain (p : plain) : Prop := lenN (fst p) = 16 /\ fst p <> g_header /\ fst p <> g_data /\ 24 + lenN (snd p) < 2 ^ 64.
Lemma plain_is p : plain_ok p -> is_plain p.
Proof. intros (A & B & C & D & _). now repeat split. Qed.
Lemma next_plain m (f a r : bytes) p : f = a ++ plain_bytes p ++ r -> is_plain p -> asf_next m f (lenN a) = Ok (Some (ob (Obj p) (lenN a))).
Proof.
  intros E (L & H1 & H2 & H3). destruct p as (g & d). unfold plain_bytes in E. cbn [fst snd] in *. set (n := 24 + lenN d) in *.
  assert (Lf : lenN f = lenN a + n + lenN r) by (rewrite E, !lenN_app, lenN_le, L; unfold n; lia).
  unfold asf_next. replace (lenN f <? lenN a + 24) with false by lia.
  rewrite (sub_is f a (g ++ le 8 n) (d ++ r)) by (solve [reflexivity | rewrite E, <- !app_assoc; reflexivity | rewrite lenN_app, lenN_le, L; reflexivity]).
  rewrite takeN_app_exact by now rewrite L. replace (unpack 8 (g ++ le 8 n) 16) with (@Ok N n) by (symmetry; rewrite <- (app_nil_r (le 8 n)); apply unpack_app; [now rewrite L|exact H3]). cbn [bind].
  rewrite is_data, is_header, (beqb_not g g_data H2), (beqb_not g g_header H1). rewrite andb_false_r, app_nil_r. cbn [negb andb].
  replace (match m with Sample => lenN f <? lenN a + n | _ => false end) with false by (destruct m; lia). reflexivity.
Qed.
Lemma next_obj m (f a r : bytes) o : f = a ++ obj_bytes o ++ r -> obj_ok o -> asf_next m f (lenN a) = Ok (Some (ob o (lenN a))).
Proof.
  intros E H. destruct o as [p|six kids]; [apply (next_plain m f a r p E), plain_is, H|]. destruct H as (L6 & _ & H3). cbn [obj_bytes] in E. set (n := 30 + lenN (kids_bytes kids)) in *.
  assert (Lf : lenN f = lenN a + n + lenN r) by (rewrite E, !lenN_app, lenN_le, len_header, L6; unfold n; lia).
  unfold asf_next. replace (lenN f <? lenN a + 24) with false by lia.
  rewrite (sub_is f a (g_header ++ le 8 n) (six ++ kids_bytes kids ++ r)) by (solve [reflexivity | rewrite E, <- !app_assoc; reflexivity | rewrite lenN_app, lenN_le, len_header; reflexivity]).
  rewrite takeN_app_exact by now rewrite len_header. replace (unpack 8 (g_header ++ le 8 n) 16) with (@Ok N n) by (symmetry; rewrite <- (app_nil_r (le 8 n)); apply unpack_app; [now rewrite len_header|exact H3]). cbn [bind].
  rewrite is_data, is_header, beqb_refl. assert (X : beqb g_header g_data = false) by (vm_compute; reflexivity). rewrite X. rewrite andb_false_r. cbn [negb andb].
  rewrite (sub_is f (a ++ g_header ++ le 8 n) six (kids_bytes kids ++ r)) by (solve [rewrite E, <- !app_assoc; reflexivity | now rewrite L6 | rewrite !lenN_app, lenN_le, len_header; reflexivity]).
  replace (match m with Sample => lenN f <? lenN a + n | _ => false end) with false by (destruct m; lia). cbn [ob]. fold n. now rewrite <- app_assoc.
Qed.
Lemma next_end m (f a r : bytes) : f = a ++ r -> lenN r < 24 -> asf_next m f (lenN a) = Ok None.
Proof. intros -> H. unfold asf_next. rewrite lenN_app. now replace (lenN a + lenN r <? lenN a + 24) with true by lia. Qed.
(** the header of a data object with a size and a number of packets *)
Definition dhead (size : N) (i : bytes) (count : N) (two : bytes) : bytes := g_data ++ le 8 size ++ i ++ le 8 count ++ two.
Lemma len_dhead size i count two : lenN i = 16 -> lenN two = 2 -> lenN (dhead size i count two) = 50.
Proof. intros A B. unfold dhead. rewrite !lenN_app, !lenN_le, A, B, len_data. reflexivity. Qed.
Lemma next_dhead m (f a : bytes) size i count two r : f = a ++ dhead size i count two ++ r -> lenN i = 16 -> lenN two = 2 -> size < 2 ^ 64 ->
  asf_next m f (lenN a) =
  if is_stored m then
    do count' <- packet_count (dhead size i count two);
    do psize <- packet_size (dhead size i count two) size count';
    do e <- stored_end (1 + length f) f psize count' (lenN (a ++ dhead size i count two));
    Ok (Some (mkO g_data (e - lenN a) size (dhead size i count two) (lenN a)))
  else Ok (Some (mkO g_data size size (dhead size i count two) (lenN a))).
Proof.
  intros E A B H. pose proof (len_dhead size i count two A B) as Lh. assert (Lf : lenN f = lenN a + 50 + lenN r) by (rewrite E, !lenN_app, Lh; lia). unfold dhead in E.
  unfold asf_next. replace (lenN f <? lenN a + 24) with false by lia.
  rewrite (sub_is f a (g_data ++ le 8 size) ((i ++ le 8 count ++ two) ++ r)) by (solve [reflexivity | rewrite E, <- !app_assoc; reflexivity | rewrite lenN_app, lenN_le, len_data; reflexivity]).
  rewrite takeN_app_exact by now rewrite len_data. replace (unpack 8 (g_data ++ le 8 size) 16) with (@Ok N size) by (symmetry; rewrite <- (app_nil_r (le 8 size)); apply unpack_app; [now rewrite len_data|exact H]). cbn [bind].
  rewrite is_data, is_header, beqb_refl. assert (X : beqb g_data g_header = false) by (vm_compute; reflexivity). rewrite X. cbn [negb andb].
  rewrite (sub_is f (a ++ g_data ++ le 8 size) (i ++ le 8 count ++ two) r) by (solve [rewrite E, <- !app_assoc; reflexivity | rewrite !lenN_app, lenN_le, A, B; reflexivity | rewrite !lenN_app, lenN_le, len_data; reflexivity]).
  replace ((g_data ++ le 8 size) ++ i ++ le 8 count ++ two) with (dhead size i count two) by (unfold dhead; now rewrite <- !app_assoc). rewrite andb_true_r.
  rewrite (lenN_app a). destruct m; reflexivity.
Qed.
Lemma count_is size i count two : lenN i = 16 -> count < 2 ^ 64 -> packet_count (dhead size i count two) = Ok count.
Proof.
  intros A H. unfold packet_count, dhead. rewrite (app_assoc (le 8 size)), (app_assoc g_data). apply unpack_app; [|exact H]. rewrite !lenN_app, lenN_le, len_data, A. reflexivity.
Qed.
Lemma psize_is size i count two psize : lenN i = 16 -> lenN two = 2 -> count <> 0 -> size = 50 + psize * count -> packet_size (dhead size i count two) size count = Ok (Z.of_N psize).
Proof.
  intros A B C ->. unfold packet_size. rewrite len_dhead by assumption. replace (count =? 0) with false by lia. f_equal. replace (Z.of_N (50 + psize * count) - Z.of_N 50)%Z with (Z.of_N psize * Z.of_N count)%Z by lia. apply Z.div_mul. lia.
Qed.

(** ** Packets *)
Lemma packets_cons k ks : packets_bytes (k :: ks) = pk_bytes k ++ packets_bytes ks. Proof. reflexivity. Qed.
Lemma packets_len ks psize : Forall (fun k => lenN (pk_bytes k) = psize) ks -> lenN (packets_bytes ks) = psize * lenN ks.
Proof. induction 1 as [|k ks H _ IH]; [cbn; lia|]. rewrite packets_cons, lenN_app, H, IH, lenN_cons. lia. Qed.
Lemma pk_pos k : 9 <= lenN (pk_head k).
Proof. unfold pk_head. rewrite !lenN_app, !lenN_le. unfold one. cbn [lenN]. change (N.of_nat 4) with 4. change (N.of_nat 2) with 2. lia. Qed.
Lemma pk_size_pos k : 0 < lenN (pk_bytes k). Proof. unfold pk_bytes. rewrite lenN_app. pose proof (pk_pos k). lia. Qed.
Section Packets.
Context {S : Type}.
Variable act : S -> N -> bytes -> parsed -> result (S * bool).
Fixpoint prun (ks : list packet) (off : N) (s : S) : result S :=
  match ks with
  | [] => Ok s
  | k :: ks => do r <- act s off (pk_bytes k) (pk_parsed false k); if snd r then Ok (fst r) else prun ks (off + lenN (pk_bytes k)) (fst r)
  end.
Lemma packets_run exact (f : bytes) psize ks : Forall packet_ok ks -> Forall (fun k => lenN (pk_bytes k) = psize) ks -> forall (a r : bytes) s fuel, f = a ++ packets_bytes ks ++ r -> (length ks < fuel)%nat ->
  packets fuel exact act f (Z.of_N psize) (lenN ks) (lenN a) s = prun ks (lenN a) s.
Proof.
  induction ks as [|k ks IH]; intros O L a r s fuel E Fu; (destruct fuel as [|fuel]; [cbn [length] in Fu; lia|]); cbn [packets prun].
  - reflexivity.
  - rewrite lenN_cons. replace (1 + lenN ks =? 0) with false by lia. pose proof (Forall_inv O) as Ok'; pose proof (Forall_inv_tail O) as O'; pose proof (Forall_inv L) as Lk; pose proof (Forall_inv_tail L) as L'.
    rewrite packets_cons, <- app_assoc in E. unfold read_n, read_at. replace (Z.of_N psize <? -1)%Z with false by lia. replace (Z.of_N psize <? 0)%Z with false by lia. rewrite N2Z.id. cbn beta in Lk.
    rewrite (sub_is f a (pk_bytes k) (packets_bytes ks ++ r)) by (assumption || reflexivity || now symmetry). cbn [bind]. rewrite Lk, Z.eqb_refl. cbn [negb]. rewrite andb_false_r.
    pose proof (packet_is false k [] Ok' (fun _ => eq_refl)) as G. rewrite app_nil_r, pk_enc_false, Lk in G. rewrite G. cbn [bind]. destruct (act s (lenN a) (pk_bytes k) (pk_parsed false k)) as [x|e]; [|reflexivity]. cbn [bind]. destruct (snd x); [reflexivity|].
    replace (1 + lenN ks - 1) with (lenN ks) by lia. replace (lenN a + psize) with (lenN (a ++ pk_bytes k)) by (rewrite lenN_app; lia). rewrite (IH O' L' (a ++ pk_bytes k) r) by ((rewrite E, <- !app_assoc; reflexivity) || (cbn [length] in Fu; lia)). now rewrite lenN_app.
Qed.
End Packets.
(** without the data *)
Definition bares (ks : list packet) : bytes := concat (map pk_bare ks).
Lemma bares_cons k ks : bares (k :: ks) = pk_bare k ++ bares ks. Proof. reflexivity. Qed.
Lemma bares_le ks : lenN (bares ks) <= lenN (packets_bytes ks).
Proof.
  induction ks as [|k ks IH]; [cbn; lia|]. rewrite bares_cons, packets_cons, !lenN_app, <- pk_enc_true, <- pk_enc_false. unfold pk_enc. rewrite !lenN_app. pose proof (enc_le (pk_pieces k)). change (lenN (@nil byte)) with 0. lia.
Qed.
Lemma stored_end_is (f : bytes) psize ks : Forall packet_ok ks -> Forall (fun k => lenN (pk_bytes k) = psize) ks -> forall (a r : bytes) fuel, f = a ++ bares ks ++ r -> (length ks < fuel)%nat ->
  stored_end fuel f (Z.of_N psize) (lenN ks) (lenN a) = Ok (lenN (a ++ bares ks)).
Proof.
  induction ks as [|k ks IH]; intros O L a r fuel E Fu; (destruct fuel as [|fuel]; [cbn [length] in Fu; lia|]); cbn [stored_end].
  - cbn [lenN]. change (0 =? 0) with true. cbv iota. now rewrite app_nil_r.
  - rewrite lenN_cons. replace (1 + lenN ks =? 0) with false by lia. pose proof (Forall_inv O) as Ok'; pose proof (Forall_inv_tail O) as O'; pose proof (Forall_inv L) as Lk; pose proof (Forall_inv_tail L) as L'. cbn beta in Lk.
    rewrite bares_cons, <- app_assoc in E. rewrite E at 1. rewrite dropN_app_exact by reflexivity. rewrite <- pk_enc_true, <- Lk, (packet_is true k) by (assumption || discriminate). cbn [bind pk_parsed k_used].
    replace (lenN (pk_head k ++ enc true (pk_pieces k))) with (lenN (pk_bare k)) by (rewrite <- pk_enc_true; unfold pk_enc; now rewrite app_nil_r). rewrite <- lenN_app. replace (1 + lenN ks - 1) with (lenN ks) by lia. rewrite Lk.
    rewrite (IH O' L' (a ++ pk_bare k) r) by ((rewrite E, <- !app_assoc; reflexivity) || (cbn [length] in Fu; lia)). now rewrite bares_cons, app_assoc.
Qed.
