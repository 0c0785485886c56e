(** Mp4Ex: an MP4 sample, a movie it is from, and samples that cannot be rebuilt. *)
From Verif Require Import Base BaseFacts Crc SrsRec SrsRecSpec Srs Mp4 StrmSpec Mp3Spec Mp4Spec Mp4Tables Mp4Read Mp4Facts Mp4Srs Mp4Main.

Definition box (ty d : bytes) : bytes := be 4 (8 + lenN d) ++ ty ++ d.
Lemma box_head (ty d : bytes) : lenN ty = 4 -> 8 + lenN d < 2 ^ 32 -> header ty (lenN (be 4 (8 + lenN d) ++ ty) + lenN d) (be 4 (8 + lenN d) ++ ty).
Proof. intros L H. rewrite lenN_app, lenN_be, L. change (N.of_nat 4 + 4) with 8. apply header_32; [lia|exact H]. Qed.
Lemma box_leaf movie (ty d : bytes) its bs : lenN ty = 4 -> existsb (beqb ty) (containers ++ special) = false -> 8 + lenN d < 2 ^ 32 -> boxes movie its bs -> boxes movie ((ty, d) :: its) (box ty d ++ bs).
Proof.
  intros L Ni H B. unfold box. rewrite <- !app_assoc. rewrite (app_assoc _ ty). apply boxes_leaf; try assumption; [|now apply box_head].
  intros X. assert (Y : existsb (beqb ty) (containers ++ special) = true) by (apply existsb_exists; exists ty; split; [exact X|now apply beqb_eq]). congruence.
Qed.
Lemma box_node movie (ty d : bytes) its its' bs : existsb (beqb ty) containers = true -> 8 + lenN d < 2 ^ 32 -> boxes movie its d -> boxes movie its' bs -> boxes movie (its ++ its') (box ty d ++ bs).
Proof.
  intros C H B B'. unfold box. rewrite <- !app_assoc. rewrite (app_assoc _ ty). apply existsb_exists in C as (x & Hx & E). apply beqb_eq in E. subst x. apply boxes_node with ty; try assumption. apply box_head; [now apply containers_len|exact H].
Qed.
Definition ver : bytes := repN 4 x00.
(** the boxes of a track *)
Definition tkhd_data (t : vtrack) : bytes := repN 12 x00 ++ be 4 (v_id t).
Definition stco_data (t : vtrack) : bytes := ver ++ be 4 (lenN (v_chunks t)) ++ numbers 4 (map fst (v_chunks t)).
Definition stsc_data (t : vtrack) : bytes := ver ++ be 4 (lenN (v_table t)) ++ concat (map entry (map (fun e => (e, 1)) (v_table t))).
Definition stsz_data (t : vtrack) : bytes := ver ++ be 4 0 ++ be 4 (lenN (v_samples t)) ++ numbers 4 (map lenN (v_samples t)).
Definition trak_items (t : vtrack) : list (bytes * bytes) :=
  [(bstr "tkhd", tkhd_data t); (bstr "hdlr", bstr "x"); (bstr "stsz", stsz_data t); (bstr "stsc", stsc_data t); (bstr "stco", stco_data t)].
Definition stbl_data (t : vtrack) : bytes := box (bstr "stsz") (stsz_data t) ++ box (bstr "stsc") (stsc_data t) ++ box (bstr "stco") (stco_data t).
Definition mdia_data (t : vtrack) : bytes := box (bstr "hdlr") (bstr "x") ++ box (bstr "minf") (box (bstr "stbl") (stbl_data t)).
Definition trak (t : vtrack) : bytes := box (bstr "trak") (box (bstr "tkhd") (tkhd_data t) ++ box (bstr "mdia") (mdia_data t)).
Definition fits_boxes (t : vtrack) : bool :=
  (v_id t <? 2 ^ 32) && (lenN (v_chunks t) <? 2 ^ 32) && (lenN (v_table t) <? 2 ^ 32) && (lenN (v_samples t) <? 2 ^ 32) &&
  forallb (fun o => o <? 2 ^ 32) (map fst (v_chunks t)) && forallb (fun e => (fst e <? 2 ^ 32) && (snd e <? 2 ^ 32)) (v_table t) && forallb (fun n => n <? 2 ^ 32) (map lenN (v_samples t)) &&
  (lenN (trak t) <? 2 ^ 32).
Lemma lenN_box (ty d : bytes) : lenN (box ty d) = 4 + lenN ty + lenN d.
Proof. unfold box. rewrite !lenN_app, lenN_be. change (N.of_nat 4) with 4. lia. Qed.
Lemma box_one movie (ty d : bytes) : lenN ty = 4 -> existsb (beqb ty) (containers ++ special) = false -> 8 + lenN d < 2 ^ 32 -> boxes movie [(ty, d)] (box ty d).
Proof. intros. rewrite <- (app_nil_r (box ty d)). apply box_leaf; try assumption. constructor. Qed.
Lemma node_one movie (ty d : bytes) its : existsb (beqb ty) containers = true -> 8 + lenN d < 2 ^ 32 -> boxes movie its d -> boxes movie its (box ty d).
Proof. intros. rewrite <- (app_nil_r (box ty d)), <- (app_nil_r its). apply box_node; try assumption. constructor. Qed.
Ltac lens4 := change (lenN (bstr "stsz")) with 4 in *; change (lenN (bstr "stsc")) with 4 in *; change (lenN (bstr "stco")) with 4 in *; change (lenN (bstr "stbl")) with 4 in *; change (lenN (bstr "minf")) with 4 in *;
  change (lenN (bstr "hdlr")) with 4 in *; change (lenN (bstr "mdia")) with 4 in *; change (lenN (bstr "tkhd")) with 4 in *; change (lenN (bstr "trak")) with 4 in *; change (lenN (bstr "x")) with 1 in *.
Lemma trak_boxes movie t its bs : fits_boxes t = true -> boxes movie its bs -> boxes movie (trak_items t ++ its) (trak t ++ bs).
Proof.
  intros F B. unfold fits_boxes in F. rewrite !andb_true_iff in F. destruct F as ((((((_ & _) & _) & _) & _) & _) & L). apply N.ltb_lt in L.
  assert (L' : lenN (tkhd_data t) + lenN (stsz_data t) + lenN (stsc_data t) + lenN (stco_data t) + 73 < 2 ^ 32).
  { unfold trak, mdia_data, stbl_data in L. rewrite !lenN_box, !lenN_app, !lenN_box, !lenN_app, !lenN_box in L. lens4. change (2 ^ 32) with 4294967296 in *. rewrite ?lenN_app, ?lenN_box in L. lens4. lia. }
  change (2 ^ 32) with 4294967296 in *. unfold trak. apply box_node; [reflexivity| | |exact B].
  - unfold mdia_data, stbl_data. repeat rewrite ?lenN_box, ?lenN_app. lens4. change (2 ^ 32) with 4294967296. lia.
  - unfold trak_items. apply box_leaf; [reflexivity|reflexivity|change (2 ^ 32) with 4294967296; lia|]. apply node_one; [reflexivity| |].
    + unfold mdia_data, stbl_data. repeat rewrite ?lenN_box, ?lenN_app. lens4. change (2 ^ 32) with 4294967296. lia.
    + unfold mdia_data. apply box_leaf; [reflexivity|reflexivity|reflexivity|]. apply node_one; [reflexivity| |].
      { unfold stbl_data. repeat rewrite ?lenN_box, ?lenN_app. lens4. change (2 ^ 32) with 4294967296. lia. }
      apply node_one; [reflexivity| |].
      { unfold stbl_data. repeat rewrite ?lenN_box, ?lenN_app. lens4. change (2 ^ 32) with 4294967296. lia. }
      unfold stbl_data. apply box_leaf; [reflexivity|reflexivity|change (2 ^ 32) with 4294967296; lia|]. apply box_leaf; [reflexivity|reflexivity|change (2 ^ 32) with 4294967296; lia|]. apply box_one; [reflexivity|reflexivity|change (2 ^ 32) with 4294967296; lia].
Qed.
Lemma all_lt {A} (g : A -> bool) (P : A -> Prop) l : (forall x, g x = true -> P x) -> forallb g l = true -> Forall P l.
Proof. intros K H. rewrite forallb_forall in H. apply Forall_forall. auto. Qed.
Lemma trak_described t : fits_boxes t = true -> described t (trak_items t).
Proof.
  intros F. unfold fits_boxes in F. rewrite !andb_true_iff in F. destruct F as (((((((F1 & F2) & F3) & F4) & F5) & F6) & F7) & _). apply N.ltb_lt in F1, F2, F3, F4.
  unfold trak_items. do 5 eexists. split; [reflexivity|]. split; [unfold tkhd_data; rewrite lenN_app, lenN_be; vm_compute; discriminate|]. split.
  { unfold tkhd_data. replace (sub 12 4 _) with (be 4 (v_id t)); [now apply unbe_be_small|]. symmetry. rewrite <- (app_nil_r (be 4 (v_id t))). apply sub_app_exact; [reflexivity|reflexivity]. }
  split; [reflexivity|]. split; [reflexivity|]. split; [reflexivity|]. split; [reflexivity|]. split; [|split].
  - unfold stco_data. rewrite <- (lenN_map fst (v_chunks t)) in F2 |- *. apply stco_box; [reflexivity|exact F2|]. apply (all_lt _ _ _ (fun x H => proj1 (N.ltb_lt x _) H) F5).
  - unfold stsc_data. pose proof (stsc_box ver (map (fun e => (e, 1)) (v_table t)) eq_refl) as X. rewrite lenN_map in X. replace (map fst (map (fun e => (e, 1)) (v_table t))) with (v_table t) in X by (rewrite map_map; cbn [fst]; now rewrite map_id). apply X; [exact F3|].
    apply Forall_map. cbn [fst snd]. apply (all_lt _ (fun e => fst e < 2 ^ 32 /\ snd e < 2 ^ 32) _) with (2 := F6). intros e H. apply andb_true_iff in H as (A & B). now apply N.ltb_lt in A, B.
  - unfold stsz_data. pose proof (lenN_map (@lenN byte) (v_samples t)) as El. pose proof (stsz_each ver (map lenN (v_samples t)) eq_refl) as X. rewrite El in X. apply X; [exact F4|]. apply (all_lt _ _ _ (fun x H => proj1 (N.ltb_lt x _) H) F7).
Qed.
Lemma tracks_in_all ts pre : forallb fits_boxes ts = true -> NoDup (map v_id ts) -> of_type [bstr "tkhd"; bstr "stco"; bstr "co64"; bstr "stsc"; bstr "stsz"; bstr "stz2"] pre = [] -> tracks_in ts (pre ++ concat (map trak_items ts)).
Proof.
  intros F Nd P. split; [exact Nd|]. exists pre, (map trak_items ts). split; [reflexivity|]. split; [|exact P]. clear -F. induction ts as [|t ts IH]; [constructor|]. cbn [forallb] in F. apply andb_true_iff in F as (F1 & F2). constructor; [now apply trak_described|now apply IH].
Qed.
Lemma traks_boxes movie ts its bs : forallb fits_boxes ts = true -> boxes movie its bs -> boxes movie (concat (map trak_items ts) ++ its) (concat (map trak ts) ++ bs).
Proof. intros F B. induction ts as [|t ts IH]; [exact B|]. cbn [forallb] in F. apply andb_true_iff in F as (F1 & F2). cbn [map concat]. rewrite <- !app_assoc. apply trak_boxes; [exact F1|now apply IH]. Qed.
Lemma moov_boxes movie ts : forallb fits_boxes ts = true -> 8 + lenN (concat (map trak ts)) < 2 ^ 32 -> boxes movie (concat (map trak_items ts)) (box (bstr "moov") (concat (map trak ts))).
Proof. intros F L. apply node_one; [reflexivity|exact L|]. rewrite <- (app_nil_r (concat (map trak_items ts))), <- (app_nil_r (concat (map trak ts))). apply traks_boxes; [exact F|constructor]. Qed.
Definition ftyp : bytes := box (bstr "ftyp") (bstr "mp42").
Lemma ftyp_boxes movie : boxes movie [(bstr "ftyp", bstr "mp42")] ftyp. Proof. apply box_one; reflexivity. Qed.

(** ** The sample *)
Definition e_chunks : list (N * (N * list bytes)) := [(1, (20, [bstr "aaaa"; bstr "bb"])); (2, (26, [bstr "XYZ"])); (1, (29, [bstr "cccc"]))].
Definition e_pay : bytes := bstr "aaaabbXYZcccc".
Definition e_ts : list vtrack := [mkV 1 [(1, 2); (2, 1)] (chunks_of 1 e_chunks); mkV 2 [(1, 1)] (chunks_of 2 e_chunks)].
Definition e_h : bytes := be 4 21 ++ bstr "mdat".
Definition e_b : bytes := box (bstr "moov") (concat (map trak e_ts)).
Ltac table_ok := split; [repeat split; cbn [In]; intros ? ? K; repeat destruct K as [K|K]; try contradiction; injection K as <- <-; lia|].
Lemma in_one n c : 1 <= c -> in_table [(1, n)] c n.
Proof. intros H. exists 1. split; [now left|]. split; [exact H|]. intros f' n' [K|[]] _. injection K as <- <-. lia. Qed.
Lemma e_counted : Forall counted e_ts.
Proof.
  constructor; [|constructor; [|constructor]].
  - split; [split; [intros f n [K|[]]; injection K as <- <-; lia|split; [intros f n []|exact I]]|]. split; [intros f n [K|[K|[]]]; injection K as <- <-; lia|].
    intros i o ds H. destruct i as [|[|i]]; [| |destruct i; discriminate]; injection H as <- <-.
    + exists 1. split; [now left|]. split; [lia|]. intros f n [K|[K|[]]] L; injection K as <- <-; lia.
    + exists 2. split; [right; now left|]. split; [vm_compute; discriminate|]. intros f n [K|[K|[]]] L; injection K as <- <-; lia.
  - split; [split; [intros f n []|exact I]|]. split; [intros f n [K|[]]; injection K as <- <-; lia|].
    intros i o ds H. destruct i as [|i]; [|destruct i; discriminate]. injection H as <- <-. now apply in_one.
Qed.
Lemma e_laid : laid_out 20 e_chunks e_pay.
Proof.
  unfold e_chunks. change e_pay with (concat [bstr "aaaa"; bstr "bb"] ++ concat [bstr "XYZ"] ++ concat [bstr "cccc"] ++ []). constructor; [discriminate|]. change (20 + lenN (concat [bstr "aaaa"; bstr "bb"])) with 26.
  constructor; [discriminate|]. change (26 + lenN (concat [bstr "XYZ"])) with 29. constructor; [discriminate|]. constructor.
Qed.
Lemma ids12 : NoDup [1; 2]. Proof. constructor; [intros [K|[]]; discriminate|]. constructor; [intros []|constructor]. Qed.
Lemma e_ok : mp4_ok ftyp e_h e_pay e_b e_ts.
Proof.
  split; [left; exact (header_32 (bstr "mdat") 21 ltac:(vm_compute; discriminate) eq_refl)|]. split; [exact e_counted|]. split.
  - exists [(bstr "ftyp", bstr "mp42")], (concat (map trak_items e_ts)). split; [apply ftyp_boxes|]. split; [apply moov_boxes; reflexivity|]. apply tracks_in_all; [reflexivity|exact ids12|reflexivity].
  - exists e_chunks. split; [exact e_laid|]. split.
    + intros x [<-|[<-|[<-|[]]]]; [now left|right; now left|now left].
    + intros t [<-|[<-|[]]]; reflexivity.
Qed.
(** ** The movie *)
Definition e_main_pay : bytes := bstr "00aaaabbQQXYZWccccdd".
Definition e_ms : list vtrack := [mkV 2 [(1, 3)] [(28, [bstr "QQ"; bstr "XYZ"; bstr "W"])]; mkV 1 [(1, 3); (2, 2)] [(20, [bstr "00"; bstr "aaaa"; bstr "bb"]); (34, [bstr "cccc"; bstr "dd"])]].
Definition e_main : bytes := ftyp ++ (be 4 28 ++ bstr "mdat") ++ e_main_pay ++ box (bstr "moov") (concat (map trak e_ms)).
Lemma place (f d : bytes) o : sub o (lenN d) f = d -> lenN d <> 0 -> occurs d f o.
Proof.
  intros E N0. exists (takeN o f), (dropN (o + lenN d) f). split.
  - rewrite <- E at 1. unfold sub. rewrite (N.add_comm o), <- (dropN_dropN (lenN d) o), (takeN_dropN (lenN d) (dropN o f)), (takeN_dropN o f). reflexivity.
  - rewrite lenN_takeN. apply (f_equal lenN) in E. rewrite lenN_sub in E. lia.
Qed.
Lemma e_movie : movie_ok e_main e_ms.
Proof.
  split.
  - exists ([(bstr "ftyp", bstr "mp42")] ++ concat (map trak_items e_ms)). split.
    + unfold e_main. apply box_leaf; [reflexivity|reflexivity|reflexivity|]. apply boxes_mdat; [reflexivity|exact (header_32 (bstr "mdat") 28 ltac:(vm_compute; discriminate) eq_refl)|]. apply moov_boxes; reflexivity.
    + apply tracks_in_all; [reflexivity| |reflexivity]. constructor; [intros [K|[]]; discriminate|]. constructor; [intros []|constructor].
  - constructor; [|constructor; [|constructor]]; (split; [|split; [|split; [|discriminate]]]).
    + split; [split; [intros f n []|exact I]|]. split; [intros f n [K|[]]; injection K as <- <-; lia|]. intros i o ds H. destruct i as [|i]; [|destruct i; discriminate]. injection H as <- <-. now apply in_one.
    + intros o ds [K|[]]. injection K as <- <-. apply place; [vm_compute; reflexivity|discriminate].
    + split; [reflexivity|]. split; [intros o ds []|exact I].
    + split; [split; [intros f n [K|[]]; injection K as <- <-; lia|split; [intros f n []|exact I]]|]. split; [intros f n [K|[K|[]]]; injection K as <- <-; lia|].
      intros i o ds H. destruct i as [|[|i]]; [| |destruct i; discriminate]; injection H as <- <-.
      * exists 1. split; [now left|]. split; [lia|]. intros f n [K|[K|[]]] L; injection K as <- <-; lia.
      * exists 2. split; [right; now left|]. split; [vm_compute; discriminate|]. intros f n [K|[K|[]]] L; injection K as <- <-; lia.
    + intros o ds [K|[K|[]]]; injection K as <- <-; (apply place; [vm_compute; reflexivity|discriminate]).
    + split; [reflexivity|]. split; [intros o ds [K|[]]; injection K as <- <-; vm_compute; discriminate|]. split; [reflexivity|]. split; [intros o ds []|exact I].
Qed.
Lemma not_begins (s l : bytes) : beqb (takeN (lenN s) l) s = false -> ~ starts s l.
Proof. intros H (r & ->). rewrite takeN_app_exact in H by reflexivity. assert (X : beqb s s = true) by now apply beqb_eq. congruence. Qed.
Lemma not_shorter (s : bytes) l : ~ lenN (concat (s :: l)) < lenN (concat [s]).
Proof. cbn [concat]. rewrite app_nil_r, lenN_app. lia. Qed.
Lemma e_held : in_movie first_held e_ts e_ms.
Proof.
  intros t [<-|[<-|[]]].
  - exists (mkV 1 [(1, 3); (2, 2)] [(20, [bstr "00"; bstr "aaaa"; bstr "bb"]); (34, [bstr "cccc"; bstr "dd"])]). split; [right; now left|]. split; [reflexivity|].
    exists [bstr "00"], [bstr "aaaa"; bstr "bb"; bstr "cccc"; bstr "dd"]. split; [reflexivity|]. split; [exists (bstr "dd"); reflexivity|].
    intros pre' post' E L. destruct pre' as [|s pre']; [cbn [Datatypes.app] in E; rewrite <- E; apply not_begins; vm_compute; reflexivity|]. exfalso. injection E as <- _. now apply (not_shorter (bstr "00") pre').
  - exists (mkV 2 [(1, 3)] [(28, [bstr "QQ"; bstr "XYZ"; bstr "W"])]). split; [now left|]. split; [reflexivity|].
    exists [bstr "QQ"], [bstr "XYZ"; bstr "W"]. split; [reflexivity|]. split; [exists (bstr "W"); reflexivity|].
    intros pre' post' E L. destruct pre' as [|s pre']; [cbn [Datatypes.app] in E; rewrite <- E; apply not_begins; vm_compute; reflexivity|]. exfalso. injection E as <- _. now apply (not_shorter (bstr "QQ") pre').
Qed.
Definition e_app : text := str "pyReSample 0.7".
Definition e_name : text := str "/tmp/a.mp4".
Lemma e_created : exists srs, mp4_srs e_app e_name false (fun _ => 0) (mp4_file ftyp e_h e_pay e_b) = Ok srs /\ lenN srs = lenN (mp4_file ftyp e_h [] e_b) + 110.
Proof.
  assert (Ft : Forall (fun t => v_id t < 2 ^ 16 /\ 0 < 2 ^ 64 /\ lenN (v_data t) < 2 ^ 32) e_ts) by (constructor; [|constructor; [|constructor]]; repeat split; vm_compute; reflexivity).
  assert (Na : after_slash e_name (str "a.mp4")).
  { split; [|right; exists (str "/tmp"); reflexivity]. cbn. intros H. repeat destruct H as [H|H]; try discriminate. contradiction. }
  destruct (mp4_creates e_app e_name (str "a.mp4") false (fun _ => 0) ftyp e_h e_pay e_b e_ts (bstr "pyReSample 0.7") (bstr "a.mp4") e_ok ltac:(discriminate) Ft eq_refl eq_refl Na eq_refl eq_refl) as (srs & E & L).
  - vm_compute. reflexivity.
  - exists srs. split; [exact E|]. rewrite L. change (lenN (concat (map (fun t => takeN 256 (v_data t)) e_ts))) with 13. change (lenN (bstr "pyReSample 0.7")) with 14. change (lenN (bstr "a.mp4")) with 5. change (lenN e_ts) with 2. lia.
Qed.
Lemma e_ids : Forall (fun t => v_id t < 2 ^ 16) e_ts. Proof. constructor; [reflexivity|constructor; [reflexivity|constructor]]. Qed.

(** ** Samples that cannot be rebuilt *)
(** two boxes mdat *)
Definition w_t : vtrack := mkV 1 [(1, 1)] [(20, [bstr "aa"]); (30, [bstr "bb"])].
Definition w_two : bytes := ftyp ++ box (bstr "mdat") (bstr "aa") ++ box (bstr "mdat") (bstr "bb") ++ box (bstr "moov") (trak w_t).
Definition w_two_out : bytes := ftyp ++ (be 4 10 ++ bstr "mdat") ++ bstr "aabb" ++ (be 4 10 ++ bstr "mdat") ++ box (bstr "moov") (trak w_t).
Lemma w_two_ok : movie_ok w_two [w_t].
Proof.
  split.
  - exists ([(bstr "ftyp", bstr "mp42")] ++ concat (map trak_items [w_t])). split.
    + unfold w_two. apply box_leaf; [reflexivity|reflexivity|reflexivity|]. unfold box at 1 2. rewrite <- !app_assoc. rewrite (app_assoc _ (bstr "mdat")). apply boxes_mdat; [reflexivity|exact (header_32 (bstr "mdat") 10 ltac:(vm_compute; discriminate) eq_refl)|].
      rewrite (app_assoc _ (bstr "mdat")). apply boxes_mdat; [reflexivity|exact (header_32 (bstr "mdat") 10 ltac:(vm_compute; discriminate) eq_refl)|].
      pose proof (moov_boxes true [w_t] eq_refl eq_refl) as M. cbn [map concat] in M. rewrite app_nil_r in M. cbn [map concat]. exact M.
    + apply tracks_in_all; [reflexivity| |reflexivity]. constructor; [intros []|constructor].
  - constructor; [|constructor]. split; [|split; [|split; [|discriminate]]].
    + split; [split; [intros f n []|exact I]|]. split; [intros f n [K|[]]; injection K as <- <-; lia|]. intros i o ds H. destruct i as [|[|i]]; [| |destruct i; discriminate]; injection H as <- <-; apply in_one; vm_compute; discriminate.
    + intros o ds [K|[K|[]]]; injection K as <- <-; (apply place; [vm_compute; reflexivity|discriminate]).
    + split; [reflexivity|]. split; [intros o ds [K|[]]; injection K as <- <-; vm_compute; discriminate|]. split; [reflexivity|]. split; [intros o ds []|exact I].
Qed.
(** the number of a track in more than 16 bits *)
Definition w_b : vtrack := mkV 65537 [(1, 1)] [(20, [bstr "aa"])].
Definition w_big : bytes := mp4_file ftyp (be 4 10 ++ bstr "mdat") (bstr "aa") (box (bstr "moov") (trak w_b)).
Lemma w_big_ok : mp4_ok ftyp (be 4 10 ++ bstr "mdat") (bstr "aa") (box (bstr "moov") (trak w_b)) [w_b].
Proof.
  split; [left; exact (header_32 (bstr "mdat") 10 ltac:(vm_compute; discriminate) eq_refl)|]. split.
  { constructor; [|constructor]. split; [split; [intros f n []|exact I]|]. split; [intros f n [K|[]]; injection K as <- <-; lia|]. intros i o ds H. destruct i as [|i]; [|destruct i; discriminate]. injection H as <- <-. apply in_one; vm_compute; discriminate. }
  split.
  - exists [(bstr "ftyp", bstr "mp42")], (concat (map trak_items [w_b])). split; [apply ftyp_boxes|]. split.
    + pose proof (moov_boxes false [w_b] eq_refl eq_refl) as M. cbn [map concat] in M. rewrite app_nil_r in M. cbn [map concat]. exact M.
    + apply tracks_in_all; [reflexivity| |reflexivity]. constructor; [intros []|constructor].
  - exists [(65537, (20, [bstr "aa"]))]. split; [|split].
    + change (bstr "aa") with (concat [bstr "aa"] ++ []). constructor; [discriminate|constructor].
    + intros x [<-|[]]. now left.
    + intros t [<-|[]]. reflexivity.
Qed.
(** Sizes in 8 bits each, in a box stz2: the field size is taken for the size of all samples. *)
Definition stz2_data (sizes : list N) : bytes := ver ++ repN 3 x00 ++ be 1 8 ++ be 4 (lenN sizes) ++ numbers 1 sizes.
Theorem stz2_witness : exists sizes m, Forall (fun n => n < 256) sizes /\
  add_table (mkM [] [] [] [] 0) (mkAtom (bstr "stz2") 23 (be 4 23 ++ bstr "stz2") 0) (repN 4 x00 ++ repN 3 x00 ++ be 1 8 ++ be 4 (lenN sizes) ++ numbers 1 sizes) = Some (Ok m) /\ m_sizes m <> sizes.
Proof. exists [4; 2; 4]. eexists. split; [|split; [vm_compute; reflexivity|vm_compute; discriminate]]. constructor; [reflexivity|]. constructor; [reflexivity|]. constructor; [reflexivity|constructor]. Qed.
Theorem two_mdat_witness : exists f ms srs out, movie_ok f ms /\ mp4_srs (str "pyReSample 0.7") (str "/tmp/a.mp4") false (fun _ => 0) f = Ok srs /\ mp4_restore false srs f = Ok (Mismatch out) /\ out <> f.
Proof.
  destruct (mp4_srs (str "pyReSample 0.7") (str "/tmp/a.mp4") false (fun _ => 0) w_two) as [srs|] eqn:E; [|vm_compute in E; discriminate].
  exists w_two, [w_t], srs, w_two_out. split; [exact w_two_ok|]. split; [exact E|]. split; [|vm_compute; discriminate]. vm_compute in E. injection E as <-. vm_compute. reflexivity.
Qed.
Theorem big_id_witness : exists a h p b ts srs, mp4_ok a h p b ts /\ mp4_srs (str "pyReSample 0.7") (str "/tmp/a.mp4") false (fun _ => 0) (mp4_file a h p b) = Ok srs /\ mp4_restore false srs (mp4_file a h p b) = Err KeyError.
Proof.
  destruct (mp4_srs (str "pyReSample 0.7") (str "/tmp/a.mp4") false (fun _ => 0) w_big) as [srs|] eqn:E; [|vm_compute in E; discriminate].
  exists ftyp, (be 4 10 ++ bstr "mdat"), (bstr "aa"), (box (bstr "moov") (trak w_b)), [w_b], srs. split; [exact w_big_ok|]. split; [exact E|]. vm_compute in E. injection E as <-. vm_compute. reflexivity.
Qed.
Lemma e_found : movie_ok e_main e_ms /\ (in_movie first_held e_ts e_ms /\ (false = true \/ exists t, In t e_ts /\ 0 = 0)) /\
  in_movie (fun t m => held_at (if v_id t =? 1 then 22 else 30) t m) e_ts e_ms.
Proof.
  split; [exact e_movie|]. split; [split; [exact e_held|right; exists (hd w_t e_ts); split; [now left|reflexivity]]|].
  intros t [<-|[<-|[]]].
  - exists (mkV 1 [(1, 3); (2, 2)] [(20, [bstr "00"; bstr "aaaa"; bstr "bb"]); (34, [bstr "cccc"; bstr "dd"])]). split; [right; now left|]. split; [reflexivity|].
    exists [bstr "aaaa"; bstr "bb"; bstr "cccc"; bstr "dd"]. split; [|exists (bstr "dd"); reflexivity]. exists [], 20, [bstr "00"], [bstr "aaaa"; bstr "bb"], [(34, [bstr "cccc"; bstr "dd"])]. repeat split.
  - exists (mkV 2 [(1, 3)] [(28, [bstr "QQ"; bstr "XYZ"; bstr "W"])]). split; [now left|]. split; [reflexivity|].
    exists [bstr "XYZ"; bstr "W"]. split; [|exists (bstr "W"); reflexivity]. exists [], 28, [bstr "QQ"], [bstr "XYZ"; bstr "W"], []. repeat split.
Qed.
Lemma e_table : increasing [(1, 3); (4, 1); (5, 2)] /\ (forall f m, In (f, m) [(1, 3); (4, 1); (5, 2)] -> 1 <= f) /\ in_table [(1, 3); (4, 1); (5, 2)] 3 3 /\ in_table [(1, 3); (4, 1); (5, 2)] 9 2 /\
  stsc (map (fun x => (fst x, Some (snd x))) [(1, 3); (4, 1); (5, 2)]) = [(1, Some 3); (2, Some 3); (3, Some 3); (4, Some 1); (5, Some 2)].
Proof.
  split; [|split; [|split; [|split; [|vm_compute; reflexivity]]]].
  - split; [intros f n [K|[K|[]]]; injection K as <- <-; lia|]. split; [intros f n [K|[]]; injection K as <- <-; lia|]. split; [intros f n []|exact I].
  - intros f n [K|[K|[K|[]]]]; injection K as <- <-; lia.
  - exists 1. split; [now left|]. split; [lia|]. intros f n [K|[K|[K|[]]]] L; injection K as <- <-; lia.
  - exists 5. split; [right; right; now left|]. split; [lia|]. intros f n [K|[K|[K|[]]]] L; injection K as <- <-; lia.
Qed.
Lemma sized_flat (f : bytes) : forallb (fun n => negb (beqb (sub (N.of_nat n) 4 f) (be 4 1)) || negb (beqb (sub (N.of_nat n + 8) 8 f) (repN 8 x00))) (seq 0 (length f)) = true -> sized f.
Proof.
  intros H pos E1 E2. rewrite forallb_forall in H. assert (L : (N.to_nat pos < length f)%nat).
  { apply (f_equal lenN) in E1. rewrite lenN_sub, lenN_be in E1. rewrite lenN_length in E1. lia. }
  specialize (H (N.to_nat pos)). rewrite N2Nat.id, E1, E2 in H. assert (X : false = true) by (apply H, in_seq; lia). discriminate.
Qed.
Lemma e_sized : sized (mp4_file ftyp e_h e_pay e_b). Proof. apply sized_flat. vm_compute. reflexivity. Qed.
