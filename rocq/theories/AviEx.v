(** AviEx: an AVI sample, a movie it is from, and samples that cannot be rebuilt. *)
From Verif Require Import Base BaseFacts Crc SrsRec SrsRecSpec Srs StrmSpec Mp3Spec Avi AviSpec AviRead AviSrs AviMain AviMore.

(** ** Deciding the hypotheses *)
Definition fourcc_b (cc : bytes) : bool :=
  (lenN cc =? 4) && forallb (fun b => (b2n b =? 32) || (48 <=? b2n b) && (b2n b <=? 57) || (65 <=? b2n b) && (b2n b <=? 90) || (97 <=? b2n b) && (b2n b <=? 122)) cc.
Definition item_ok_b (i : item) : bool :=
  match i with
  | Lst ty size name => (beqb ty (bstr "RIFF") || beqb ty (bstr "LIST")) && (size <? 2 ^ 32) && (lenN name =? 4)
  | Chk cc data pad => fourcc_b cc && negb (beqb cc (bstr "RIFF")) && negb (beqb cc (bstr "LIST")) && (lenN data <? 2 ^ 32) && (lenN pad =? lenN data mod 2)
  end.
Lemma not_beqb a b : negb (beqb a b) = true -> a <> b.
Proof. intros H ->. rewrite (proj2 (beqb_eq b b) eq_refl) in H. discriminate. Qed.
Lemma item_ok_is i : item_ok_b i = true -> item_ok i.
Proof.
  destruct i as [ty size name|cc data pad]; cbn [item_ok_b item_ok]; rewrite !andb_true_iff.
  - intros ((A & B) & C). rewrite orb_true_iff, !beqb_eq in A. split; [exact A|]. lia.
  - unfold fourcc_b. rewrite andb_true_iff. intros (((((A & A') & B) & C) & D) & E). split; [split; [lia|]|].
    + apply Forall_forall. intros b Hb. rewrite forallb_forall in A'. specialize (A' b Hb). lia.
    + apply not_beqb in B, C. repeat split; try assumption; lia.
Qed.
Lemma items_ok_are its : forallb item_ok_b its = true -> Forall item_ok its.
Proof. intros H. rewrite forallb_forall in H. apply Forall_forall. intros i Hi. now apply item_ok_is, H. Qed.
Fixpoint lists_fit_b (its : list item) : bool :=
  match its with
  | [] => true
  | i :: r => match i with Lst ty size name => negb (beqb ty (bstr "LIST")) || (8 + size <=? lenN (file_of its)) | _ => true end && lists_fit_b r
  end.
Lemma lists_fit_are its : lists_fit_b its = true -> lists_fit its.
Proof.
  induction its as [|i r IH]; intros H a size name b E; [destruct a; discriminate|]. cbn [lists_fit_b] in H. apply andb_true_iff in H as (H1 & H2). destruct a as [|j a].
  - cbn [List.app] in E. assert (Ei : i = Lst (bstr "LIST") size name) by congruence. assert (Er : r = b) by congruence. subst i r. apply orb_true_iff in H1 as [H1|H1]; [discriminate|]. lia.
  - cbn [List.app] in E. apply (IH H2 a). congruence.
Qed.
Definition names_b (its : list item) : bool := forallb (fun i => negb (beqb (name_of i) (bstr "SRSF")) && negb (beqb (name_of i) (bstr "SRST"))) its.
Lemma names_are its : names_b its = true -> forall i, In i its -> name_of i <> bstr "SRSF" /\ name_of i <> bstr "SRST".
Proof. unfold names_b. intros H i Hi. rewrite forallb_forall in H. specialize (H i Hi). apply andb_true_iff in H as (A & B). apply not_beqb in A, B. now split. Qed.
(** the streams there are *)
Definition streams (its : list item) : list N := flat_map (fun i => match i with Chk cc _ _ => match stream_no cc with Some n => [n] | None => [] end | _ => [] end) its.
Lemma streams_are n its : has_stream n its <-> In n (streams its).
Proof.
  unfold streams. rewrite in_flat_map. split.
  - intros (cc & d & pad & I & E). exists (Chk cc d pad). split; [exact I|]. rewrite E. now left.
  - intros (i & I & H). destruct i as [|cc d pad]; [destruct H|]. destruct (stream_no cc) as [k|] eqn:E; [|destruct H]. destruct H as [-> | []]. now exists cc, d, pad.
Qed.
Lemma avi_ok_is a size b : let its := a ++ Lst (bstr "LIST") size (bstr "movi") :: b in
  forallb item_ok_b its && lists_fit_b its && names_b its && match streams a with [] => true | _ => false end &&
  forallb (fun n => match data_of n its with [] => false | _ => true end) (streams its) = true -> avi_ok its.
Proof.
  intros its H. rewrite !andb_true_iff in H. destruct H as ((((H1 & H2) & H3) & H4) & H5). split; [now apply items_ok_are|]. split; [now apply lists_fit_are|]. split; [now apply names_are|]. split.
  - exists a, size, b. split; [reflexivity|]. intros n Hn. apply streams_are in Hn. destruct (streams a); [destruct Hn|discriminate].
  - intros n Hn. apply streams_are in Hn. rewrite forallb_forall in H5. specialize (H5 n Hn). destruct (data_of n its); [discriminate|discriminate].
Qed.

(** ** A sample *)
Definition lst (name : string) (size : N) : item := Lst (bstr "LIST") size (bstr name).
Definition chk (cc : string) (d : bytes) : item := Chk (bstr cc) d (if lenN d mod 2 =? 1 then [x00] else []).
Definition e_head : list item := [Lst (bstr "RIFF") 104 (bstr "AVI "); lst "hdrl" 16; chk "strh" (bstr "vids")].
Definition e_body : list item := [chk "00dc" (bstr "abc"); lst "rec " 36; chk "01wb" (bstr "XY"); chk "00dc" (bstr "defg"); chk "01wb" (bstr "Z"); chk "idx1" (bstr "entries.")].
Definition e_its : list item := e_head ++ lst "movi" 60 :: e_body.
Lemma e_ok : avi_ok e_its.
Proof. apply (avi_ok_is e_head 60 e_body). vm_compute. reflexivity. Qed.
Definition e_ap : text := str "pyReSample 0.7".
Definition e_name : text := str "/tmp/a.avi".
Example e_streams : streams e_its = [0; 1; 0; 1] /\ data_of 0 e_its = bstr "abcdefg" /\ data_of 1 e_its = bstr "XYZ". Proof. vm_compute. auto. Qed.
Lemma e_created : exists srs, avi_srs e_ap e_name false (fun _ => 0) (file_of e_its) = Ok srs /\ lenN srs = lenN (file_of e_its) + 110 - 10.
Proof. eexists. split; vm_compute; reflexivity. Qed.
(** ** The movie *)
Definition e_pre : list item := [Lst (bstr "RIFF") 124 (bstr "AVI "); lst "movi" 80; chk "02tx" (bstr "sub"); chk "00dc" (bstr "zz"); chk "01wb" (bstr "Q")].
Definition e_post : list item := [chk "01wb" (bstr "PXY"); chk "00dc" (bstr "efgh"); chk "02tx" (bstr "title"); chk "01wb" (bstr "Z.")].
Definition e_ms : list item := e_pre ++ chk "00dc" (bstr "abcd") :: e_post.
Definition e_main : bytes := file_of e_ms ++ bstr "end".
Definition e_at (n : N) : N := if n =? 0 then lenN (file_of e_pre) + 8 else lenN (file_of e_pre) + 21.
Lemma e_movie : movie_ok e_main e_ms.
Proof. split; [apply items_ok_are; vm_compute; reflexivity|]. split; [vm_compute; discriminate|]. exists (bstr "end"). split; [reflexivity|vm_compute; reflexivity]. Qed.
(** a place before which the signature does not begin *)
Fixpoint nowhere (sig data after : bytes) : bool :=
  match data with [] => true | _ :: data' => negb (starts_with Byte.eqb (takeN (lenN sig) (data ++ after)) sig) && nowhere sig data' after end.
Lemma starts_b a b : starts a b -> starts_with Byte.eqb a b = true.
Proof. intros (q & ->). induction a as [|x a IH]; [reflexivity|]. cbn [List.app starts_with]. rewrite IH. replace (Byte.eqb x x) with true by (symmetry; now apply Byte.byte_dec_lb). reflexivity. Qed.
Lemma nowhere_are sig data after : nowhere sig data after = true -> forall a b, data = a ++ b -> b <> [] -> ~ starts (takeN (lenN sig) (b ++ after)) sig.
Proof.
  induction data as [|x data IH]; intros H a b E Nb S; [destruct a; [cbn in E; congruence|discriminate]|]. cbn [nowhere] in H. apply andb_true_iff in H as (H1 & H2). destruct a as [|y a].
  - cbn [List.app] in E. subst b. apply starts_b in S. rewrite S in H1. discriminate.
  - cbn [List.app] in E. apply (IH H2 a b); [congruence|exact Nb|exact S].
Qed.
Definition starts_at (d x : bytes) : bool := beqb (takeN (lenN d) x) d.
Lemma starts_at_is d x : starts_at d x = true -> starts d x.
Proof. intros H. apply beqb_eq in H. exists (dropN (lenN d) x). rewrite <- H at 1. symmetry. apply takeN_dropN. Qed.
Lemma first_held_is n d pre cc d1 d2 pad post o : d2 <> [] ->
  match stream_no cc with Some k => k =? n | None => false end && (o =? lenN (file_of pre) + 8 + lenN d1) && starts_at d (d2 ++ data_of n post) && nowhere (takeN 256 d) (data_of n pre ++ d1) d2 = true ->
  first_held n d (pre ++ Chk cc (d1 ++ d2) pad :: post) o d1.
Proof.
  intros N2 H. rewrite !andb_true_iff in H. destruct H as (((H1 & H2) & H3) & H4). exists pre, cc, d2, pad, post. split; [reflexivity|]. split; [destruct (stream_no cc); [f_equal; lia|discriminate]|]. split; [exact N2|]. split; [lia|]. split; [now apply starts_at_is|]. now apply nowhere_are.
Qed.
Lemma e_two n : has_stream n e_its -> n = 0 \/ n = 1.
Proof. intros H. apply streams_are in H. change (In n [0; 1; 0; 1]) in H. cbn [In] in H. lia. Qed.
Lemma e_has n : n = 0 \/ n = 1 -> has_stream n e_its.
Proof. intros H. apply streams_are. change (In n [0; 1; 0; 1]). cbn [In]. lia. Qed.
Definition e_pre1 : list item := e_pre ++ [chk "00dc" (bstr "abcd")].
Definition e_post1 : list item := [chk "00dc" (bstr "efgh"); chk "02tx" (bstr "title"); chk "01wb" (bstr "Z.")].
Lemma e_first0 : first_held 0 (data_of 0 e_its) e_ms (e_at 0) [].
Proof. apply (first_held_is 0 (data_of 0 e_its) e_pre (bstr "00dc") [] (bstr "abcd") [] e_post); [discriminate|vm_compute; reflexivity]. Qed.
Lemma e_first1 : first_held 1 (data_of 1 e_its) e_ms (e_at 1) (bstr "P").
Proof. apply (first_held_is 1 (data_of 1 e_its) e_pre1 (bstr "01wb") (bstr "P") (bstr "XY") [x00] e_post1); [discriminate|vm_compute; reflexivity]. Qed.
Lemma e_in : in_movie first_held e_its e_ms e_at (lenN (file_of e_pre) + 8).
Proof.
  split; [|split].
  - intros n Hn. apply e_two in Hn as [-> | ->]; [exists []; split; [exact e_first0|reflexivity]|]. exists (bstr "P"). split; [exact e_first1|]. vm_compute. discriminate.
  - exists 0. split; [apply e_has; now left|reflexivity].
  - intros n Hn. unfold e_at. destruct (n =? 0); lia.
Qed.
(** the streams before and after a place, for all places *)
Fixpoint goes_on_b (pre post : list item) (o : N) : bool :=
  (negb (lenN (file_of pre) + 8 =? o) || forallb (fun n => existsb (N.eqb n) (streams post)) (streams pre)) &&
  match post with [] => true | i :: post => goes_on_b (pre ++ [i]) post o end.
Lemma goes_on_at o : forall post p pre q, goes_on_b p post o = true -> post = pre ++ q -> lenN (file_of (p ++ pre)) + 8 = o -> forall n, has_stream n (p ++ pre) -> has_stream n q.
Proof.
  intros post. induction post as [|i post IH]; intros p pre q H E L n Hn; cbn [goes_on_b] in H; apply andb_true_iff in H as (H1 & H2).
  - destruct pre; [|discriminate]. cbn [List.app] in E. subst q. rewrite app_nil_r in *. replace (lenN (file_of p) + 8 =? o) with true in H1 by lia. cbn [negb orb] in H1. rewrite forallb_forall in H1. apply streams_are in Hn. specialize (H1 n Hn). discriminate.
  - destruct pre as [|j pre].
    + cbn [List.app] in E. subst q. rewrite app_nil_r in *. replace (lenN (file_of p) + 8 =? o) with true in H1 by lia. cbn [negb orb] in H1. rewrite forallb_forall in H1. apply streams_are in Hn. specialize (H1 n Hn). apply existsb_exists in H1 as (k & K & Ek). apply N.eqb_eq in Ek. subst k. now apply streams_are.
    + cbn [List.app] in E. assert (j = i) by congruence. assert (Eq : post = pre ++ q) by congruence. subst j. replace (p ++ i :: pre) with ((p ++ [i]) ++ pre) in * by (rewrite <- app_assoc; reflexivity). now apply (IH (p ++ [i]) pre q).
Qed.
Lemma goes_on_is ms o : goes_on_b [] ms o = true -> goes_on ms o.
Proof. intros H pre post n E L Hn. now apply (goes_on_at o ms [] pre post H E L). Qed.
Lemma e_goes : goes_on e_ms (lenN (file_of e_pre) + 8).
Proof. apply goes_on_is. vm_compute. reflexivity. Qed.
Lemma e_held : in_movie held e_its e_ms e_at (lenN (file_of e_pre) + 8).
Proof. destruct e_in as (A & B). split; [|exact B]. intros n Hn. destruct (A n Hn) as (d1 & P & Q). exists d1. split; [now apply first_held_held|exact Q]. Qed.
Lemma e_tracks : let ts := [(1, mkTrack (t_td (new_track 1)) 0 0 (Some (bstr "XYZ..")) None); (0, mkTrack (t_td (new_track 0)) 0 0 (Some (bstr "abcdefg")) None)] : tracks in
  NoDup (map fst ts) /\ Forall (fun t => t_file (snd t) <> None) ts /\
  forall n, has_stream n e_its -> exists t d, In (n, t) ts /\ t_file t = Some d /\ starts (data_of n e_its) d.
Proof.
  intros ts. split; [constructor; [intros [K|[]]; discriminate|constructor; [intros []|constructor]]|]. split; [constructor; [discriminate|constructor; [discriminate|constructor]]|].
  intros n Hn. apply e_two in Hn as [-> | ->].
  - do 2 eexists. split; [right; left; reflexivity|]. split; [reflexivity|]. apply starts_at_is. vm_compute. reflexivity.
  - do 2 eexists. split; [left; reflexivity|]. split; [reflexivity|]. apply starts_at_is. vm_compute. reflexivity.
Qed.

(** ** A stream found inside a chunk *)
(** What is 8 bytes before could be the name of a chunk: reading starts there. *)
Definition m_pre : list item := [Lst (bstr "RIFF") 124 (bstr "AVI "); lst "movi" 80].
Definition m_d1 : bytes := bstr "text" ++ repN 4 x00.
Definition m_post : list item := [chk "00dc" (bstr "gg"); chk "01wb" (bstr "XYZ")].
Definition m_ms : list item := m_pre ++ Chk (bstr "00dc") (m_d1 ++ bstr "abcdef") [] :: m_post.
Definition m_o : N := lenN (file_of m_pre) + 8 + 8.
Definition m_at (n : N) : N := if n =? 0 then m_o else m_o + 24.
Lemma inside_witness : exists its srs ms main at_ o, avi_ok its /\ avi_srs (str "pyReSample 0.7") (str "/tmp/a.avi") false (fun _ => 0) (file_of its) = Ok srs /\ movie_ok main ms /\
  (forall n, has_stream n its -> o <= at_ n /\ exists d1, first_held n (data_of n its) ms (at_ n) d1) /\ (exists n, has_stream n its /\ at_ n = o) /\ goes_on ms o /\
  forall out, avi_restore false srs main <> Ok (Rebuilt out).
Proof.
  destruct e_created as (srs & E & _). exists e_its, srs, m_ms, (file_of m_ms), m_at, m_o. split; [exact e_ok|]. split; [exact E|]. split.
  - split; [apply items_ok_are; vm_compute; reflexivity|]. split; [vm_compute; discriminate|]. exists []. split; [now rewrite app_nil_r|vm_compute; reflexivity].
  - split; [|split; [|split]].
    + intros n Hn. split; [unfold m_at; destruct (n =? 0); lia|]. apply e_two in Hn as [-> | ->].
      * exists m_d1. apply (first_held_is 0 (data_of 0 e_its) m_pre (bstr "00dc") m_d1 (bstr "abcdef") [] m_post); [discriminate|vm_compute; reflexivity].
      * exists []. apply (first_held_is 1 (data_of 1 e_its) (m_pre ++ [Chk (bstr "00dc") (m_d1 ++ bstr "abcdef") []; chk "00dc" (bstr "gg")]) (bstr "01wb") [] (bstr "XYZ") [x00] []); [discriminate|vm_compute; reflexivity].
    + exists 0. split; [apply e_has; now left|reflexivity].
    + apply goes_on_is. vm_compute. reflexivity.
    + vm_compute in E. assert (Es : exists s, srs = s) by now exists srs. injection E as <-. intros out. vm_compute. discriminate.
Qed.

(** ** A stream of the movie that ends before the sample begins *)
Definition g_post : list item := [chk "01wb" (bstr "PXY"); chk "00dc" (bstr "efgh"); chk "01wb" (bstr "Z.")].
Definition g_ms : list item := e_pre ++ chk "00dc" (bstr "abcd") :: g_post.
Lemma ended_witness : exists its srs ms main at_ o, avi_ok its /\ avi_srs (str "pyReSample 0.7") (str "/tmp/a.avi") false (fun _ => 0) (file_of its) = Ok srs /\ movie_ok main ms /\
  in_movie first_held its ms at_ o /\ avi_restore false srs main = Err AttributeError.
Proof.
  destruct e_created as (srs & E & _). exists e_its, srs, g_ms, (file_of g_ms), e_at, (lenN (file_of e_pre) + 8). split; [exact e_ok|]. split; [exact E|]. split.
  - split; [apply items_ok_are; vm_compute; reflexivity|]. split; [vm_compute; discriminate|]. exists []. split; [now rewrite app_nil_r|vm_compute; reflexivity].
  - split; [split; [|split]|].
    + intros n Hn. apply e_two in Hn as [-> | ->].
      * exists []. split; [|reflexivity]. apply (first_held_is 0 (data_of 0 e_its) e_pre (bstr "00dc") [] (bstr "abcd") [] g_post); [discriminate|vm_compute; reflexivity].
      * exists (bstr "P"). split; [|vm_compute; discriminate]. apply (first_held_is 1 (data_of 1 e_its) e_pre1 (bstr "01wb") (bstr "P") (bstr "XY") [x00] [chk "00dc" (bstr "efgh"); chk "01wb" (bstr "Z.")]); [discriminate|vm_compute; reflexivity].
    + exists 0. split; [apply e_has; now left|reflexivity].
    + intros n Hn. unfold e_at. destruct (n =? 0); lia.
    + vm_compute in E. injection E as <-. vm_compute. reflexivity.
Qed.
(** ** Data before the list movi, or no such list *)
Definition n_its : list item := [Lst (bstr "RIFF") 16 (bstr "AVI "); chk "00dc" (bstr "abc")].
Lemma no_movi_witness : exists its srs, Forall item_ok its /\ lists_fit its /\ (forall n, has_stream n its -> data_of n its <> []) /\
  avi_srs (str "pyReSample 0.7") (str "/tmp/a.avi") false (fun _ => 0) (file_of its) = Ok srs /\ avi_restore false srs (file_of its) = Err UnboundLocal.
Proof.
  exists n_its. assert (X : exists srs, avi_srs (str "pyReSample 0.7") (str "/tmp/a.avi") false (fun _ => 0) (file_of n_its) = Ok srs) by (eexists; vm_compute; reflexivity). destruct X as (srs & E). exists srs.
  split; [apply items_ok_are; vm_compute; reflexivity|]. split; [apply lists_fit_are; vm_compute; reflexivity|]. split.
  - intros n Hn. apply streams_are in Hn. change (In n [0]) in Hn. destruct Hn as [<- | []]. vm_compute. discriminate.
  - split; [exact E|]. vm_compute in E. injection E as <-. vm_compute. reflexivity.
Qed.
(** ** A stream without data, and the sample itself as the movie *)
Definition z_its : list item := e_head ++ lst "movi" 68 :: chk "02tx" [] :: e_body.
Lemma empty_witness : exists its srs, Forall item_ok its /\ lists_fit its /\ (exists a size b, its = a ++ Lst (bstr "LIST") size (bstr "movi") :: b /\ forall n, ~ has_stream n a) /\
  avi_srs (str "pyReSample 0.7") (str "/tmp/a.avi") false (fun _ => 0) (file_of its) = Ok srs /\ movie_ok (file_of its) its /\ avi_restore false srs (file_of its) = Err AttributeError.
Proof.
  exists z_its. assert (X : exists srs, avi_srs (str "pyReSample 0.7") (str "/tmp/a.avi") false (fun _ => 0) (file_of z_its) = Ok srs) by (eexists; vm_compute; reflexivity). destruct X as (srs & E). exists srs.
  split; [apply items_ok_are; vm_compute; reflexivity|]. split; [apply lists_fit_are; vm_compute; reflexivity|]. split.
  - exists e_head, 68, (chk "02tx" [] :: e_body). split; [reflexivity|]. intros n Hn. apply streams_are in Hn. exact Hn.
  - split; [exact E|]. split.
    + split; [apply items_ok_are; vm_compute; reflexivity|]. split; [vm_compute; discriminate|]. exists []. split; [now rewrite app_nil_r|vm_compute; reflexivity].
    + vm_compute in E. injection E as <-. vm_compute. reflexivity.
Qed.
