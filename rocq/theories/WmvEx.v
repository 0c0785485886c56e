(** WmvEx: a WMV sample, a movie it is from, and samples that cannot be rebuilt. *)
From Verif Require Import Base BaseFacts Crc SrsRec SrsRecSpec Srs StrmSpec Mp3Spec Avi Wmv WmvSpec WmvMain.
From Verif Require AviEx.
Import AviEx(starts_b, starts_at, starts_at_is, not_beqb, nowhere, nowhere_are).

(** ** Deciding the hypotheses *)
Definition plain_ok_b (p : plain) : bool :=
  (lenN (fst p) =? 16) && negb (beqb (fst p) g_header) && negb (beqb (fst p) g_data) && (24 + lenN (snd p) <? 2 ^ 64) &&
  (negb (beqb (fst p) g_stream) || (50 <=? lenN (snd p))) && (negb (beqb (fst p) g_file) || (24 <=? lenN (snd p))).
Lemma or_beqb a b (c : bool) : negb (beqb a b) || c = true -> a = b -> c = true.
Proof. intros H ->. rewrite (proj2 (beqb_eq b b) eq_refl) in H. exact H. Qed.
Lemma plain_ok_is p : plain_ok_b p = true -> plain_ok p.
Proof.
  unfold plain_ok_b. rewrite !andb_true_iff. intros (((((A & B) & C) & D) & E) & F). apply not_beqb in B, C. split; [lia|]. split; [exact B|]. split; [exact C|]. split; [lia|].
  split; intros G; [apply (or_beqb _ _ _ E) in G|apply (or_beqb _ _ _ F) in G]; lia.
Qed.
Definition obj_ok_b (o : obj) : bool :=
  match o with
  | Obj p => plain_ok_b p && forallb (fun g => negb (beqb (fst p) g)) g_ours
  | Head six kids => (lenN six =? 6) && forallb plain_ok_b kids && (30 + lenN (kids_bytes kids) <? 2 ^ 64)
  end.
Lemma all_is {A} (b : A -> bool) (P : A -> Prop) l : (forall x, b x = true -> P x) -> forallb b l = true -> Forall P l.
Proof. intros K H. rewrite forallb_forall in H. apply Forall_forall. intros x Hx. now apply K, H. Qed.
Lemma obj_ok_is o : obj_ok_b o = true -> obj_ok o.
Proof.
  destruct o as [p|six kids]; cbn [obj_ok_b obj_ok]; rewrite !andb_true_iff.
  - intros (A & B). split; [now apply plain_ok_is|]. intros I. rewrite forallb_forall in B. specialize (B _ I). now apply not_beqb in B.
  - intros ((A & B) & C). split; [lia|]. split; [now apply (all_is _ _ _ plain_ok_is)|lia].
Qed.
Definition fits_b (w v : N) : bool := v <? 256 ^ N.of_nat (width w).
Lemma fits_is w v : fits_b w v = true -> fits w v. Proof. unfold fits_b, fits. lia. Qed.
Definition payload_ok_b (k : packet) (p : payload) : bool :=
  match p with
  | Whole key stream num off rep data =>
    (stream <? 128) && fits_b (pk_wnum k) num && fits_b (pk_woff k) off && fits_b (pk_wrep k) (lenN rep) && ((lenN rep =? 0) || (8 <=? lenN rep)) && (lenN data <? 2 ^ 16)
  | Parts key stream num off delta parts =>
    (stream <? 128) && fits_b (pk_wnum k) num && fits_b (pk_woff k) off && fits_b (pk_wrep k) 1 && negb (lenN parts =? 0) && forallb (fun d => lenN d <? 256) parts && (lenN (concat (map part_bytes parts)) <? 2 ^ 16)
  end.
Lemma payload_ok_is k p : payload_ok_b k p = true -> payload_ok k p.
Proof.
  destruct p as [key stream num off rep data|key stream num off delta parts]; cbn [payload_ok_b payload_ok]; rewrite !andb_true_iff.
  - intros (((((A & B) & C) & D) & E) & F). repeat split; try (now apply fits_is); try lia. destruct rep; [now left|right]. rewrite lenN_cons in *. lia.
  - intros ((((((A & B) & C) & D) & E) & F) & G). repeat split; try (now apply fits_is); try lia; [intros ->; discriminate|]. apply (all_is _ _ _ (fun x H => proj1 (N.ltb_lt _ _) H) F).
Qed.
Definition packet_ok_b (k : packet) : bool :=
  (lenN (pk_ec k) =? 2) && forallb (fun w => w <? 4) [pk_wlen k; pk_wseq k; pk_wpad k; pk_wrep k; pk_woff k; pk_wnum k; pk_wstream k] && (pk_top k <? 2) &&
  fits_b (pk_wlen k) (pk_length k) && fits_b (pk_wseq k) (pk_seq k) && fits_b (pk_wpad k) (pk_padlen k) && (pk_time k <? 2 ^ 32) && (pk_duration k <? 2 ^ 16) &&
  forallb (payload_ok_b k) (pk_payloads k) &&
  (if pk_multiple k then (0 <? lenN (pk_payloads k)) && (lenN (pk_payloads k) <? 64) else lenN (pk_payloads k) =? 1) &&
  (if pk_wlen k =? 0 then lenN (pk_padding k) =? pk_padlen k
   else (pk_length k <=? lenN (pk_bytes k)) && (lenN (pk_padding k) =? pk_padlen k + (lenN (pk_bytes k) - pk_length k))).
Lemma packet_ok_is k : packet_ok_b k = true -> packet_ok k.
Proof.
  unfold packet_ok_b. rewrite !andb_true_iff. intros ((((((((((A & B) & C) & D) & E) & F) & G) & H) & I) & J) & K). cbn [forallb] in B. rewrite !andb_true_iff in B. destruct B as (B1 & B2 & B3 & B4 & B5 & B6 & B7 & _).
  split; [lia|]. split; [repeat split; lia|]. split; [repeat split; lia|]. split; [repeat split; now apply fits_is|]. split; [lia|]. split; [lia|]. split; [apply (all_is _ _ _ (payload_ok_is k) I)|].
  split; [destruct (pk_multiple k); lia|]. destruct (pk_wlen k =? 0); lia.
Qed.
Definition asf_ok_b (a : asf) (psize : N) : bool :=
  forallb obj_ok_b (a_before a) && forallb obj_ok_b (a_after a) && (lenN (a_id a) =? 16) && (lenN (a_two a) =? 2) && negb (lenN (a_packets a) =? 0) &&
  forallb packet_ok_b (a_packets a) && forallb (fun k => lenN (pk_bytes k) =? psize) (a_packets a) && (50 + lenN (packets_bytes (a_packets a)) <? 2 ^ 64).
Lemma asf_ok_is a psize : asf_ok_b a psize = true -> asf_ok a psize.
Proof.
  unfold asf_ok_b. rewrite !andb_true_iff. intros (((((((A & B) & C) & D) & E) & F) & G) & H). split; [apply (all_is _ _ _ obj_ok_is A)|]. split; [apply (all_is _ _ _ obj_ok_is B)|]. split; [lia|]. split; [lia|].
  split; [intros X; rewrite X in E; discriminate|]. split; [apply (all_is _ _ _ packet_ok_is F)|]. split; [apply (all_is _ _ _ (fun x K => proj1 (N.eqb_eq _ _) K) G)|lia].
Qed.
Fixpoint apart_b (ks : list packet) (psize : N) : bool :=
  match ks with [] => true | _ :: r => ((lenN ks <=? 1) || negb (lenN (concat (map pk_bare ks)) =? psize)) && apart_b r psize end.
Lemma apart_is psize ks : apart_b ks psize = true -> forall l r, ks = l ++ r -> 1 < lenN r -> lenN (concat (map pk_bare r)) <> psize.
Proof.
  induction ks as [|k ks IH]; intros H l r E L; [destruct l; [cbn in E; subst r; rewrite lenN_nil in L; lia|discriminate]|]. cbn [apart_b] in H. apply andb_true_iff in H as (H1 & H2). destruct l as [|k' l].
  - cbn [List.app] in E. subst r. lia.
  - cbn [List.app] in E. apply (IH H2 l r); [congruence|exact L].
Qed.
Fixpoint once_b (l : list N) : bool := match l with [] => true | n :: l => negb (existsb (N.eqb n) l) && once_b l end.
Lemma once_is l : once_b l = true -> NoDup l.
Proof.
  induction l as [|n l IH]; intros H; [constructor|]. cbn [once_b] in H. apply andb_true_iff in H as (A & B). constructor; [|now apply IH]. intros I. rewrite (proj2 (existsb_exists _ _)) in A; [discriminate|]. exists n. split; [exact I|apply N.eqb_refl].
Qed.
Definition wmv_ok_b (a : asf) (psize : N) : bool :=
  asf_ok_b a psize && once_b (declared (a_before a)) && (lenN (declared (a_after a)) =? 0) && apart_b (a_packets a) psize.
Lemma wmv_ok_is a psize : wmv_ok_b a psize = true -> wmv_ok a.
Proof.
  unfold wmv_ok_b. rewrite !andb_true_iff. intros (((A & B) & C) & D). exists psize. split; [now apply asf_ok_is|]. split; [now apply once_is|]. split; [destruct (declared (a_after a)) as [|x l]; [reflexivity|rewrite lenN_cons in C; lia]|now apply apart_is].
Qed.
Definition streams (l : list piece) : list N := map p_stream l.
Lemma streams_are n l : has_stream n l <-> In n (streams l).
Proof. unfold streams, has_stream. rewrite in_map_iff. split; intros (p & A & B); exists p; now split. Qed.

(** ** A sample *)
Definition pk (psize : N) (multiple : bool) (fill : byte) (ps : list payload) : packet :=
  let k := mkPk [x00; x00] multiple 0 0 1 0 1 3 1 1 0 0 0 7 9 ps [] in
  let n := psize - lenN (pk_bytes k) in
  mkPk [x00; x00] multiple 0 0 1 0 1 3 1 1 0 0 n 7 9 ps (repN n fill).
Definition rep8 : bytes := bstr "replicat".
Definition pay (s : N) (d : string) : payload := Whole false s 5 0 rep8 (bstr d).
Definition declare (n : N) : plain := (g_stream, repN 48 x00 ++ le 2 n ++ bstr "more").
Definition e_head : obj := Head (bstr "sixsix") [declare 1; declare 2; (g_file, repN 24 x00); (bstr "0123456789abcdef", bstr "other")].
Definition e_index : obj := Obj (bstr "fedcba9876543210", bstr "index").
Definition wmv (ks : list packet) : asf := mkAsf [e_head] (bstr "the id 16 bytes.") (bstr "++") ks [e_index].
Definition e_a : asf := wmv [pk 70 true x00 [pay 1 "abc"; pay 2 "XY"]; pk 70 false x01 [Parts true 1 6 2 x02 [bstr "de"; bstr "fg"]]; pk 70 false x00 [pay 2 "Z"]].
Lemma e_ok : wmv_ok e_a.
Proof. apply (wmv_ok_is e_a 70). vm_compute. reflexivity. Qed.
Definition e_ap : text := str "pyReSample 0.7".
Definition e_name : text := str "/tmp/a.wmv".
Example e_streams : streams (pieces_of e_a) = [1; 2; 1; 1; 2] /\ data_of 1 (pieces_of e_a) = bstr "abcdefg" /\ data_of 2 (pieces_of e_a) = bstr "XYZ". Proof. vm_compute. auto. Qed.
Lemma e_created : exists srs, wmv_srs e_ap e_name false (fun _ => 0) (file_of e_a) = Ok srs.
Proof. eexists. vm_compute. reflexivity. Qed.
(** ** The movie *)
Definition e_m : asf := wmv [pk 58 true x00 [pay 1 "zz"; pay 2 "Q"]; pk 58 true x00 [pay 1 "Pabcd"; pay 2 "XY"]; pk 58 true x02 [pay 1 "efgh"; pay 2 "Z."]].
Definition e_main : bytes := file_of e_m ++ bstr "end".
Definition e_at (n : N) : N := if n =? 1 then 389 else 410.
Lemma e_movie : movie_ok e_main e_m.
Proof. split; [exists 58; apply asf_ok_is; vm_compute; reflexivity|]. split; [vm_compute; reflexivity|]. exists (bstr "end"). split; [reflexivity|vm_compute; reflexivity]. Qed.
Lemma first_held_is n d pre p d1 d2 post cs o : cs = pre ++ (p, (n, d1 ++ d2)) :: post -> d2 <> [] ->
  (o =? p + lenN d1) && starts_at d (d2 ++ cell_data n post) && nowhere (takeN 256 d) (cell_data n pre ++ d1) d2 = true -> first_held n d cs o.
Proof.
  intros E N2 H. rewrite !andb_true_iff in H. destruct H as ((H1 & H2) & H3). exists pre, p, d1, d2, post. split; [exact E|]. split; [exact N2|]. split; [lia|]. split; [now apply starts_at_is|]. now apply nowhere_are.
Qed.
Lemma e_first1 : first_held 1 (data_of 1 (pieces_of e_a)) (cells e_m) (e_at 1).
Proof. apply (first_held_is _ _ (firstn 2 (cells e_m)) 388 (bstr "P") (bstr "abcd") (skipn 3 (cells e_m))); [vm_compute; reflexivity|discriminate|vm_compute; reflexivity]. Qed.
Lemma e_first2 : first_held 2 (data_of 2 (pieces_of e_a)) (cells e_m) (e_at 2).
Proof. apply (first_held_is _ _ (firstn 3 (cells e_m)) 410 [] (bstr "XY") (skipn 4 (cells e_m))); [vm_compute; reflexivity|discriminate|vm_compute; reflexivity]. Qed.
Lemma e_two n : has_stream n (pieces_of e_a) -> n = 1 \/ n = 2.
Proof. intros H. apply streams_are in H. change (In n [1; 2; 1; 1; 2]) in H. cbn [In] in H. lia. Qed.
Lemma e_has n : n = 1 \/ n = 2 -> has_stream n (pieces_of e_a).
Proof. intros H. apply streams_are. change (In n [1; 2; 1; 1; 2]). cbn [In]. lia. Qed.
Lemma e_data n : n = 1 \/ n = 2 -> data_of n (pieces_of e_a) <> [].
Proof. intros [-> | ->]; vm_compute; discriminate. Qed.
Lemma e_in : in_movie first_held e_a e_m e_at.
Proof. intros n Hn. apply e_two in Hn. split; [now apply e_data|]. destruct Hn as [-> | ->]; [exact e_first1|exact e_first2]. Qed.
Lemma e_held : in_movie held e_a e_m e_at.
Proof. intros n Hn. destruct (e_in n Hn) as (A & B). split; [exact A|now apply first_held_held]. Qed.
Lemma e_alike n : has_stream n (pieces_of e_m) -> data_of n (pieces_of e_a) <> [].
Proof. intros H. apply streams_are in H. change (In n [1; 2; 1; 2; 1; 2]) in H. cbn [In] in H. apply e_data. lia. Qed.
Lemma e_tracks n : is_track n e_a <-> n = 1 \/ n = 2.
Proof.
  unfold is_track. split.
  - intros [H|H]; [|now apply e_two]. change (In n [1; 2]) in H. cbn [In] in H. lia.
  - intros H. right. now apply e_has.
Qed.
Definition e_ts : tracks := [(2, mkTrack (t_td (new_track 2)) 0 0 (Some (bstr "XYZ..")) None); (3, new_track 3); (1, mkTrack (t_td (new_track 1)) 0 0 (Some (bstr "abcdefg")) None)].
Lemma e_files : NoDup (map fst e_ts) /\ forall n, has_stream n (pieces_of e_a) -> exists t d, In (n, t) e_ts /\ t_file t = Some d /\ starts (data_of n (pieces_of e_a)) d.
Proof.
  split; [apply once_is; vm_compute; reflexivity|]. intros n Hn. apply e_two in Hn as [-> | ->].
  - do 2 eexists. split; [right; right; left; reflexivity|]. split; [reflexivity|]. apply starts_at_is. vm_compute. reflexivity.
  - do 2 eexists. split; [left; reflexivity|]. split; [reflexivity|]. apply starts_at_is. vm_compute. reflexivity.
Qed.

(** ** What cannot be rebuilt *)
(** a stream that only the movie has *)
Definition s_m : asf := wmv [pk 58 false x00 [pay 3 "sub"]; pk 58 true x00 [pay 1 "Pabcd"; pay 2 "XY"]; pk 58 true x02 [pay 1 "efgh"; pay 2 "Z."]].
Lemma s_in : in_movie first_held e_a s_m e_at.
Proof.
  intros n Hn. apply e_two in Hn. split; [now apply e_data|]. destruct Hn as [-> | ->].
  - apply (first_held_is _ _ (firstn 1 (cells s_m)) 388 (bstr "P") (bstr "abcd") (skipn 2 (cells s_m))); [vm_compute; reflexivity|discriminate|vm_compute; reflexivity].
  - apply (first_held_is _ _ (firstn 2 (cells s_m)) 410 [] (bstr "XY") (skipn 3 (cells s_m))); [vm_compute; reflexivity|discriminate|vm_compute; reflexivity].
Qed.
Lemma strange_witness : exists a srs main m at_, wmv_ok a /\ wmv_srs e_ap e_name false (fun _ => 0) (file_of a) = Ok srs /\ movie_ok main m /\ in_movie first_held a m at_ /\
  wmv_restore false srs main = Err IndexError.
Proof.
  do 2 eexists. exists (file_of s_m), s_m, e_at. split; [exact e_ok|]. split; [vm_compute; reflexivity|]. split; [|split; [exact s_in|vm_compute; reflexivity]].
  split; [exists 58; apply asf_ok_is; vm_compute; reflexivity|]. split; [vm_compute; reflexivity|]. exists []. split; [now rewrite app_nil_r|reflexivity].
Qed.
(** a stream of the sample with payloads but without data *)
Definition mt_a : asf := wmv [pk 70 true x00 [pay 1 "abc"; pay 2 ""]; pk 70 false x00 [pay 1 "d"]].
Lemma empty_witness : exists a srs, wmv_ok a /\ wmv_srs e_ap e_name false (fun _ => 0) (file_of a) = Ok srs /\ movie_ok (file_of a) a /\ wmv_restore false srs (file_of a) = Err IndexError.
Proof.
  exists mt_a. eexists. split; [apply (wmv_ok_is mt_a 70); vm_compute; reflexivity|]. split; [vm_compute; reflexivity|]. split; [|vm_compute; reflexivity].
  split; [exists 70; apply asf_ok_is; vm_compute; reflexivity|]. split; [vm_compute; reflexivity|]. exists []. split; [now rewrite app_nil_r|reflexivity].
Qed.
(** two packets that are as long as one when the data is taken away *)
Definition co_a : asf := wmv [pk 54 false x00 [pay 1 "abc"]; pk 54 false x00 [pay 1 "d"]].
Lemma co_in : in_movie first_held co_a co_a (fun _ => 328).
Proof.
  intros n Hn. apply streams_are in Hn. change (In n [1; 1]) in Hn. assert (n = 1) as -> by (cbn [In] in Hn; lia). split; [vm_compute; discriminate|].
  apply (first_held_is _ _ [] 328 [] (bstr "abc") (skipn 1 (cells co_a))); [vm_compute; reflexivity|discriminate|vm_compute; reflexivity].
Qed.
Lemma length_witness : exists a srs at_, asf_ok a 54 /\ NoDup (declared (a_before a)) /\ declared (a_after a) = [] /\ wmv_srs e_ap e_name false (fun _ => 0) (file_of a) = Ok srs /\
  movie_ok (file_of a) a /\ in_movie first_held a a at_ /\ (forall n, has_stream n (pieces_of a) -> data_of n (pieces_of a) <> []) /\
  forall out, wmv_restore false srs (file_of a) <> Ok (Rebuilt out).
Proof.
  exists co_a. eexists. exists (fun _ => 328). split; [apply asf_ok_is; vm_compute; reflexivity|]. split; [apply once_is; vm_compute; reflexivity|]. split; [reflexivity|]. split; [vm_compute; reflexivity|].
  split; [split; [exists 54; apply asf_ok_is; vm_compute; reflexivity|]; split; [vm_compute; reflexivity|]; exists []; split; [now rewrite app_nil_r|reflexivity]|].
  split; [exact co_in|]. split; [intros n Hn; now apply co_in|]. intros out. vm_compute. discriminate.
Qed.
(** an object of size 0 *)
Lemma load_never : exists f, forall fuel s, asf_loop fuel Stored never (load_step f) f 0 s = Err OutOfFuel.
Proof. exists (repN 24 x00). intros fuel. induction fuel as [|fuel IH]; intros s; [reflexivity|]. exact (IH s). Qed.
Lemma find_never : exists f, forall fuel ts, asf_loop fuel Main fs_done (find_step f) f 0 (ts, fun _ => [], false) = Err OutOfFuel.
Proof. exists (repN 24 x00). intros fuel. induction fuel as [|fuel IH]; intros ts; [reflexivity|]. exact (IH ts). Qed.
