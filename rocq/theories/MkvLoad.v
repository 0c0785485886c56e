(** MkvLoad: loading the SRS of a sample. *)
From Verif Require Import Base BaseFacts Crc CrcFacts SrsRec SrsRecSpec SrsRecFacts Srs SrrFacts RecovFacts Ebml EbmlSpec EbmlFacts Mkv StrmSpec Mp3Spec MkvSpec MkvRead MkvSrs.

(** ** A loop that ends at some element *)
Lemma until_loop {S} srs act (act' : S -> N -> item -> result (S * bool)) (f : bytes) all r : f = encs srs all ++ r -> acts srs act act' f all ->
  (lenN r < 2 \/ exists i r', r = enc srs i ++ r' /\ syn i /\ forall s, act s (ek i (lenN (encs srs all))) = Ok (s, None)) ->
  forall its its1 s fuel, all = its1 ++ its -> (length its < fuel)%nat -> Forall syn its ->
  ebml_loop fuel false never act f (lenN (encs srs its1)) s = irun srs never act' its (lenN (encs srs its1)) s.
Proof.
  intros E A Hr. induction its as [|i its IH]; intros its1 s fuel Ea Fu I; (destruct fuel as [|fuel]; [cbn [length] in Fu; lia|]); cbn [ebml_loop irun]; change (never s) with false; cbv iota.
  - rewrite app_nil_r in Ea. subst its1. destruct Hr as [R|(i & r' & -> & Si & Hi)].
    + rewrite (next_end false f (encs srs all) r E R). reflexivity.
    + rewrite (next_item false srs f (encs srs all) r' i E Si) by discriminate. cbn [bind]. rewrite Hi. reflexivity.
  - pose proof (Forall_inv I) as Ii; pose proof (Forall_inv_tail I) as Is. assert (E' : f = encs srs its1 ++ enc srs i ++ (encs srs its ++ r)) by (rewrite E, Ea, encs_app, encs_cons, <- !app_assoc; reflexivity).
    rewrite (next_item false srs f (encs srs its1) (encs srs its ++ r) i E' Ii) by discriminate.
    cbn [bind]. rewrite (A its1 i its (encs srs its1) (encs srs its ++ r) s Ea eq_refl E'). destruct (act' s (lenN (encs srs its1)) i) as [x|e]; [|reflexivity]. cbn [bind fst snd].
    destruct (snd x); [|reflexivity]. rewrite <- lenN_app. replace (encs srs its1 ++ enc srs i) with (encs srs (its1 ++ [i])) by (rewrite encs_app; f_equal; apply app_nil_r).
    apply IH; try assumption; [rewrite <- app_assoc; exact Ea|cbn [length] in Fu; lia].
Qed.
Lemma run_until {S} srs act (act' : S -> N -> item -> result (S * bool)) (f : bytes) its r s : f = encs srs its ++ r -> Forall syn its -> acts srs act act' f its ->
  (lenN r < 2 \/ exists i r', r = enc srs i ++ r' /\ syn i /\ forall s, act s (ek i (lenN (encs srs its))) = Ok (s, None)) ->
  ebml_run false never act f s = irun srs never act' its 0 s.
Proof.
  intros E I A Hr. unfold ebml_run. apply (until_loop srs act act' f its r E A Hr its []); [reflexivity| |exact I]. pose proof (encs_len srs its I) as L.
  assert (lenN f = lenN (encs srs its) + lenN r) by (rewrite E, lenN_app; lia). rewrite !lenN_length in *. lia.
Qed.
Lemma irun_app {S} srs (act' : S -> N -> item -> result (S * bool)) its2 : forall its1 pos s s', (forall s pos i x, In i its1 -> act' s pos i = Ok x -> snd x = true) ->
  irun srs never act' its1 pos s = Ok s' -> irun srs never act' (its1 ++ its2) pos s = irun srs never act' its2 (pos + lenN (encs srs its1)) s'.
Proof.
  induction its1 as [|i its1 IH]; intros pos s s' Hn H; cbn [irun app] in *; [apply ok_inj in H; subst s'; now rewrite N.add_0_r|]. change (never s) with false in *. cbv iota in *. destruct (act' s pos i) as [x|e] eqn:E; [|discriminate]. cbn [bind] in *. rewrite (Hn s pos i x (or_introl eq_refl) E) in *.
  rewrite (IH _ _ _ (fun s pos i x Hi => Hn s pos i x (or_intror Hi)) H), encs_cons, lenN_app, N.add_assoc. reflexivity.
Qed.

(** ** The steps of loading *)
Definition load' (s : lstate) (pos : N) (i : item) : result (lstate * bool) :=
  match i with
  | Leaf id _ content =>
    if beqb id TRACKNUMBER then do n <- get_ebml_uint content 0 (lenN content); Ok (mkL (l_data s) (l_tracks s) n (l_three s), true)
    else if beqb id TRACKCODEC then Ok (s, true)
    else if beqb id COMPRESSIONALGORITHM then do n <- get_ebml_uint content 0 (lenN content); Ok (mkL (l_data s) (l_tracks s) (l_cur s) (n =? 3), true)
    else if beqb id COMPRESSIONSETTINGS then
      Ok (match get N.eqb (l_cur s) (l_tracks s) with
          | Ok t => if l_three s then mkL (l_data s) (put N.eqb (l_cur s) (set_strip t content) (l_tracks s)) (l_cur s) (l_three s) else s
          | Err _ => s
          end, true)
    else if beqb id RESAMPLE_FILE then do d <- parse_file_data content; Ok (mkL (Some d) (l_tracks s) (l_cur s) (l_three s), true)
    else if beqb id RESAMPLE_TRACK then do t <- parse_track content; Ok (mkL (l_data s) (put N.eqb (td_number t) (mtrack_of t) (l_tracks s)) (l_cur s) (l_three s), true)
    else Ok (s, true)
  | _ => Ok (s, true)
  end.
Definition load_opens := [SEGMENT; TRACKLIST; TRACK; CONTENTENCODINGLIST; CONTENTENCODING; COMPRESSION; RESAMPLE].
Definition load_leaves := [TRACKNUMBER; TRACKCODEC; COMPRESSIONALGORITHM; COMPRESSIONSETTINGS; RESAMPLE_FILE; RESAMPLE_TRACK].
Definition load_kind (i : item) : Prop := match i with Open id _ _ => In id load_opens | Leaf id _ _ => plain id \/ In id load_leaves | Blk _ => False end.
Lemma load_acts f its : Forall load_kind its -> acts true (load_step f) load' f its.
Proof.
  intros F its1 i its2 a b s Ei Ea E. rewrite Forall_forall in F. specialize (F i). rewrite Ei in F. specialize (F (in_elt i its1 its2)). destruct i as [id w n|id w d|bl].
  - cbn [load_kind] in F. unfold load_step, load', id_in, id_is. change (e_id (ek (Open id w n) (lenN a))) with id. rewrite open_data. fold load_opens.
    assert (X : existsb (beqb id) load_opens = true) by (apply existsb_exists; exists id; split; [exact F|apply beqb_refl]). rewrite X. reflexivity.
  - cbn [load_kind] in F. unfold load_step, load', id_in, id_is. change (e_id (ek (Leaf id w d) (lenN a))) with id. rewrite !(kinds_plain load_leaves _ id F) by reflexivity.
    assert (Nd : is_data id = false) by (unfold is_data; rewrite <- is_in; apply (kinds_plain load_leaves _ id F); reflexivity).
    rewrite (leaf_read f a b true id w d E) by (intros _; exact Nd). rewrite (leaf_skip a true id w d) by (intros _; exact Nd). cbv zeta. cbn [fst snd].
    destruct (beqb id TRACKNUMBER); [destruct (get_ebml_uint d 0 (lenN d)); reflexivity|]. destruct (beqb id TRACKCODEC); [reflexivity|]. destruct (beqb id COMPRESSIONALGORITHM); [destruct (get_ebml_uint d 0 (lenN d)); reflexivity|]. destruct (beqb id COMPRESSIONSETTINGS); [reflexivity|].
    destruct (beqb id RESAMPLE_FILE); [destruct (parse_file_data d); reflexivity|]. destruct (beqb id RESAMPLE_TRACK); [destruct (parse_track d); reflexivity|]. reflexivity.
  - destruct F.
Qed.
Lemma load_stops f id w n pos s : In id [CLUSTER; ATTACHMENT_LIST] -> load_step f s (ek (Open id w n) pos) = Ok (s, None).
Proof. intros [<-|[<-|[]]]; reflexivity. Qed.
Lemma load_goes s pos i x : load' s pos i = Ok x -> snd x = true.
Proof.
  destruct i as [id w n|id w d|b]; cbn [load']; [intros H; apply ok_inj in H; now subst| |intros H; apply ok_inj in H; now subst].
  repeat (match goal with |- (if ?c then _ else _) = _ -> _ => destruct c end; [intros H; try (bindinv H); apply ok_inj in H; now subst|]). intros H; apply ok_inj in H; now subst.
Qed.

(** ** The tracks in it *)
Lemma put_new {A} k (v : A) d : (forall x, get N.eqb k d <> Ok x) -> put N.eqb k v d = d ++ [(k, v)].
Proof.
  induction d as [|(q, w) d IH]; intros H; [reflexivity|]. cbn [put get app] in *. destruct (q =? k); [now destruct (H w)|]. now rewrite IH.
Qed.
Definition row (t : track_data) : N * mtrack := (td_number t, mtrack_of t).
Lemma in_keys {A} k (d : list (N * A)) : (exists x, get N.eqb k d = Ok x) <-> In k (map fst d).
Proof.
  split.
  - intros (x & G). apply (get_in N.eqb N.eqb_eq) in G. now apply (in_map fst) in G.
  - induction d as [|(q, w) d IH]; [intros []|]. cbn [map fst get]. intros H. destruct (N.eqb_spec q k); [now exists w|]. destruct H as [H|H]; [contradiction|now apply IH].
Qed.
Lemma load_tracks tds ls : Forall2 track_leaf tds ls -> Forall (fun t => has (td_flags t) 8 = true <-> 2 ^ 16 <= td_number t) tds -> forall pos s, NoDup (map fst (l_tracks s) ++ map td_number tds) ->
  irun true never load' ls pos s = Ok (mkL (l_data s) (l_tracks s ++ map row tds) (l_cur s) (l_three s)).
Proof.
  induction 1 as [|t i tds ls Hi _ IH]; intros F pos s Nd; cbn [irun map]; [rewrite app_nil_r; now destruct s|]. change (never s) with false. cbv iota. inversion F as [|? ? F1 F2]; subst.
  destruct Hi as (w & d & -> & V & Sd). cbn [load']. change (beqb RESAMPLE_TRACK TRACKNUMBER) with false. change (beqb RESAMPLE_TRACK TRACKCODEC) with false. change (beqb RESAMPLE_TRACK COMPRESSIONALGORITHM) with false. change (beqb RESAMPLE_TRACK COMPRESSIONSETTINGS) with false. change (beqb RESAMPLE_TRACK RESAMPLE_FILE) with false. change (beqb RESAMPLE_TRACK RESAMPLE_TRACK) with true. cbv iota.
  pose proof (track_round t d [] Sd F1) as R. rewrite app_nil_r in R. rewrite R. cbn [bind fst snd]. cbn [map] in Nd. rewrite put_new.
  - rewrite IH; cbn [l_data l_tracks l_cur l_three]; [now rewrite <- app_assoc|exact F2|]. rewrite map_app, <- app_assoc. exact Nd.
  - intros x G. apply NoDup_remove_2 in Nd. apply Nd. apply in_or_app. left. apply in_keys. now exists x.
Qed.
Definition tail_kind (i : item) : Prop := load_kind i /\ match i with Leaf id _ d => ~ In id [RESAMPLE_FILE; RESAMPLE_TRACK] /\ (id = track_number \/ id = algorithm -> number_ok d) | _ => True end.
Lemma set_same t : set_strip t (m_strip t) = t. Proof. now destruct t. Qed.
Lemma load_tail its : Forall tail_kind its -> forall pos s, exists s', irun true never load' its pos s = Ok s' /\ l_data s' = l_data s /\ map fst (l_tracks s') = map fst (l_tracks s) /\
  forall n, get N.eqb n (l_tracks s') = do t <- get N.eqb n (l_tracks s); Ok (set_strip t (removed n (Some (l_cur s)) (l_three s) (m_strip t) its)).
Proof.
  induction 1 as [|i its (Hk & Hi) _ IH]; intros pos s; cbn [irun].
  - exists s. split; [reflexivity|]. split; [reflexivity|]. split; [reflexivity|]. intros n. destruct (get N.eqb n (l_tracks s)) as [t|e]; [|reflexivity]. cbn [bind removed]. now rewrite set_same.
  - change (never s) with false. cbv iota.
    assert (G : forall s1, load' s pos i = Ok (s1, true) -> l_data s1 = l_data s -> map fst (l_tracks s1) = map fst (l_tracks s) ->
      (forall n, (do t <- get N.eqb n (l_tracks s1); Ok (set_strip t (removed n (Some (l_cur s1)) (l_three s1) (m_strip t) its))) = do t <- get N.eqb n (l_tracks s); Ok (set_strip t (removed n (Some (l_cur s)) (l_three s) (m_strip t) (i :: its)))) ->
      exists s', (do x <- load' s pos i; if snd x then irun true never load' its (pos + lenN (enc true i)) (fst x) else Ok (fst x)) = Ok s' /\ l_data s' = l_data s /\ map fst (l_tracks s') = map fst (l_tracks s) /\
        forall n, get N.eqb n (l_tracks s') = do t <- get N.eqb n (l_tracks s); Ok (set_strip t (removed n (Some (l_cur s)) (l_three s) (m_strip t) (i :: its)))).
    { intros s1 E D K R. rewrite E. cbn [bind fst snd]. destruct (IH (pos + lenN (enc true i)) s1) as (s' & E' & D' & K' & R'). exists s'. split; [exact E'|]. split; [congruence|]. split; [congruence|]. intros n. rewrite R'. apply R. }
    destruct i as [id w n|id w d|b]; [apply (G s); reflexivity| |destruct Hk]. destruct Hi as (Nr & Nu). cbn [load'] in *.
    destruct (beqb id TRACKNUMBER) eqn:C1; [rewrite number_is in * by (apply Nu; left; now apply beqb_eq); cbn [bind] in *; eapply G; try reflexivity; intros n; cbn [removed]; change track_number with TRACKNUMBER; rewrite C1; reflexivity|].
    destruct (beqb id TRACKCODEC) eqn:C2; [apply beqb_eq in C2; subst id; apply (G s); try reflexivity|].
    destruct (beqb id COMPRESSIONALGORITHM) eqn:C3; [rewrite number_is in * by (apply Nu; right; now apply beqb_eq); cbn [bind] in *; eapply G; try reflexivity; intros n; cbn [removed]; change track_number with TRACKNUMBER; change algorithm with COMPRESSIONALGORITHM; rewrite C1, C3; reflexivity|].
    destruct (beqb id COMPRESSIONSETTINGS) eqn:C4.
    { assert (R : forall n t, removed n (Some (l_cur s)) (l_three s) (m_strip t) (Leaf id w d :: its) = removed n (Some (l_cur s)) (l_three s) (if l_three s && (l_cur s =? n) then d else m_strip t) its).
      { intros n t. cbn [removed]. change track_number with TRACKNUMBER. change algorithm with COMPRESSIONALGORITHM. change settings with COMPRESSIONSETTINGS. now rewrite C1, C3, C4. }
      destruct (get N.eqb (l_cur s) (l_tracks s)) as [t|e] eqn:Gt.
      - destruct (l_three s) eqn:Th.
        + eapply G; [reflexivity|reflexivity|cbn [l_tracks]; now rewrite keys_put, Gt|]. intros n. cbn [l_tracks l_cur l_three]. destruct (N.eqb_spec (l_cur s) n) as [<-|Nn].
          * rewrite (get_put_same N.eqb N.eqb_eq), Gt. cbn [bind]. rewrite R. rewrite N.eqb_refl. reflexivity.
          * rewrite (get_put_other N.eqb N.eqb_eq) by congruence. destruct (get N.eqb n (l_tracks s)) as [u|e]; [|reflexivity]. cbn [bind]. rewrite R. now replace (l_cur s =? n) with false by lia.
        + apply (G s); try reflexivity. intros n. rewrite Th. destruct (get N.eqb n (l_tracks s)) as [u|e]; [|reflexivity]. cbn [bind]. now rewrite R.
      - apply (G s); try reflexivity. intros n. destruct (N.eqb_spec (l_cur s) n) as [<-|Nn]; [now rewrite Gt|]. destruct (get N.eqb n (l_tracks s)) as [u|x]; [|reflexivity]. cbn [bind]. rewrite R. replace (l_cur s =? n) with false by lia. now rewrite andb_false_r. }
    assert (R : forall n t, removed n (Some (l_cur s)) (l_three s) (m_strip t) (Leaf id w d :: its) = removed n (Some (l_cur s)) (l_three s) (m_strip t) its).
    { intros n t. cbn [removed]. change track_number with TRACKNUMBER. change algorithm with COMPRESSIONALGORITHM. change settings with COMPRESSIONSETTINGS. now rewrite C1, C3, C4. }
    destruct (beqb id RESAMPLE_FILE) eqn:C5; [exfalso; apply Nr; apply beqb_eq in C5; subst id; now left|]. destruct (beqb id RESAMPLE_TRACK) eqn:C6; [exfalso; apply Nr; apply beqb_eq in C6; subst id; right; now left|].
    apply (G s); try reflexivity. intros n. destruct (get N.eqb n (l_tracks s)) as [u|x]; [|reflexivity]. cbn [bind]. now rewrite R.
Qed.
(** as long as there is no number nothing is told *)
Lemma removed_first n k its : numbered its -> forall now, removed n (Some k) false now its = removed n None false now its.
Proof.
  intros Nu now. induction its as [|i its IH]; [reflexivity|].
  assert (Nu' : ~ (exists q, listed q [i]) -> numbered its).
  { intros Nl x j y E A. destruct (Nu (i :: x) j y) as (q & Hq); [now rewrite E|exact A|]. change (i :: x) with ([i] ++ x) in Hq. rewrite listed_app in Hq. destruct Hq as [Hq|Hq]; [exfalso; apply Nl; now exists q|now exists q]. }
  destruct i as [id w m|id w d|b]; cbn [removed]; try (apply IH, Nu'; intros (q & w' & d & [X|[]] & _); discriminate X).
  destruct (beqb id track_number) eqn:C1; [reflexivity|]. assert (Nl : ~ exists q, listed q [Leaf id w d]) by (intros (q & X); rewrite listed_one in X; destruct X as (-> & _); discriminate C1).
  assert (A : ~ about_track (Leaf id w d)) by (intros A; destruct (Nu [] (Leaf id w d) its eq_refl A) as (q & w' & d' & [] & _)).
  destruct (beqb id algorithm) eqn:C2; [exfalso; apply A; apply beqb_eq in C2; rewrite C2; right; now left|]. destruct (beqb id settings) eqn:C3; [exfalso; apply A; apply beqb_eq in C3; rewrite C3; right; right; now left|]. now apply IH, Nu'.
Qed.
Lemma removed_app n its2 its1 : forall cur three now, exists cur' three', removed n cur three now (its1 ++ its2) = removed n cur' three' (removed n cur three now its1) its2.
Proof.
  induction its1 as [|i its1 IH]; intros cur three now; [now exists cur, three|]. cbn [app removed]. destruct i as [id w m|id w d|b]; try apply IH. destruct (beqb id track_number); [apply IH|]. destruct (beqb id algorithm); [apply IH|]. destruct (beqb id settings); apply IH.
Qed.
Definition speaks (i : item) : bool := match i with Leaf id _ _ => beqb id settings | _ => false end.
Lemma removed_silent n its : Forall (fun i => speaks i = false) its -> forall cur three now, removed n cur three now its = now.
Proof.
  induction 1 as [|i its H _ IH]; intros cur three now; [reflexivity|]. cbn [removed]. destruct i as [id w m|id w d|b]; try apply IH. destruct (beqb id track_number); [apply IH|]. destruct (beqb id algorithm); [apply IH|]. cbn [speaks] in H. rewrite H. apply IH.
Qed.
Lemma removed_end n its1 its2 : Forall (fun i => speaks i = false) its2 -> header_of n (its1 ++ its2) = header_of n its1.
Proof. intros F. unfold header_of. destruct (removed_app n its2 its1 None false []) as (c & t & ->). now apply removed_silent. Qed.

(** ** Loading *)
Lemma flags_back ap d b : serialize_file ap d = Ok b -> exists d', parse_file_data b = Ok d' /\ fd_crc32 d' = fd_crc32 d mod 2 ^ 32 /\ fd_flags d' = fd_flags d.
Proof.
  intros H. apply serialize_inv in H as (a & n & Ha & En & La & Ln & Hf & Hs & ->).
  assert (Hc : fd_crc32 d mod 2 ^ 32 < 2 ^ 32) by (apply N.mod_lt; discriminate).
  pose proof (parse_file (fd_flags d) ap _ (fd_size d) (fd_crc32 d mod 2 ^ 32) a n [] Hf Ha La En Ln Hs Hc) as P.
  rewrite app_nil_r in P. eexists. split; [exact P|]. split; reflexivity.
Qed.
Definition told (n : N) (d : bytes) (o : N) (t : track_data) : Prop := td_number t = n /\ td_offset t = o /\ td_length t = lenN d /\ is_sig (td_signature t) d.
Definition loaded (offset : N -> N) (its : list item) (ts : mtracks) : Prop :=
  NoDup (map fst ts) /\ forall n, match get N.eqb n ts with
  | Ok t => has_track n its /\ exists td, t = mkT td (offset n) 0 [] None (header_of n its) /\ told n (data_of n its) (offset n) td
  | Err _ => ~ has_track n its
  end.
Lemma get_map {A B} (g : N -> A -> B) n (d : list (N * A)) : get N.eqb n (map (fun t => (fst t, g (fst t) (snd t))) d) = do t <- get N.eqb n d; Ok (g n t).
Proof. induction d as [|(q, w) d IH]; [reflexivity|]. cbn [map get fst snd]. destruct (N.eqb_spec q n) as [->|]; [reflexivity|exact IH]. Qed.
Lemma first_group ids (ps : list part) : (exists b1 p b2, ps = b1 ++ p :: b2 /\ group_in ids p /\ Forall (fun p => ~ group_in ids p) b1) \/ Forall (fun p => ~ group_in ids p) ps.
Proof.
  induction ps as [|p ps IH]; [right; constructor|]. assert (D : group_in ids p \/ ~ group_in ids p).
  { destruct p as [i|id w its]; [right; intros (id & w & its & X & _); discriminate X|]. destruct (in_dec (list_eq_dec Byte.byte_eq_dec) id ids) as [I|I]; [left; now exists id, w, its|right]. intros (id' & w' & its' & X & Y). injection X as -> -> ->. contradiction. }
  destruct D as [D|D]; [left; exists [], p, ps; split; [reflexivity|split; [exact D|constructor]]|]. destruct IH as [(b1 & q & b2 & -> & Q & F)|F]; [left; exists (p :: b1), q, b2; split; [reflexivity|split; [exact Q|now constructor]]|right; now constructor].
Qed.
Lemma tail_part p : part_ok p -> (forall w n, p <> One (Open segment w n)) -> ~ group_in [cluster; attachments] p -> Forall tail_kind (items_of p).
Proof.
  intros H Ns Ng. destruct p as [i|id w its]; cbn [items_of].
  - constructor; [|constructor]. cbn [part_ok] in H. destruct i as [id w n|id w d|b]; cbn [item_ok] in H.
    + destruct H as ([<-|[]] & _). now destruct (Ns w n).
    + destruct H as (_ & _ & [P|[]] & Nu). split; [now left|]. split; [|exact Nu]. intros X. apply P. revert X. now apply (incl_b [RESAMPLE_FILE; RESAMPLE_TRACK] special).
    + destruct H as ([] & _).
  - cbn [part_ok] in H. destruct H as (I & _ & G & _). destruct I as [<-|[<-|[<-|[]]]].
    + constructor; [split; [right; now left|exact Logic.I]|]. rewrite Forall_forall in *. intros i Hi. specialize (G i Hi). destruct G as [(_ & G) | [(X & _) | (X & _)]]; try discriminate X. destruct i as [id' w' n|id' w' d|b]; cbn [item_ok] in G.
      * split; [|exact Logic.I]. cbn [load_kind]. destruct G as (G & _). revert G. now apply (incl_b [track_entry; encodings; encoding; compression] load_opens).
      * destruct G as (_ & _ & P & Nu). split; [cbn [load_kind]; destruct P as [P|P]; [now left|right; revert P; now apply (incl_b [track_number; codec; algorithm; settings] load_leaves)]|]. split; [|exact Nu]. intros X. destruct P as [P|P]; [apply P; revert X; now apply (incl_b [RESAMPLE_FILE; RESAMPLE_TRACK] special)|]. destruct X as [<-|[<-|[]]]; repeat (destruct P as [P|P]; [discriminate P|]); destruct P.
      * destruct G as ([] & _).
    + exfalso. apply Ng. exists attachments, w, its. split; [reflexivity|right; now left].
    + exfalso. apply Ng. exists cluster, w, its. split; [reflexivity|now left].
Qed.
Lemma parts_forall (Q : item -> Prop) ps : Forall (fun p => Forall Q (items_of p)) ps -> Forall Q (all_items ps).
Proof. induction 1 as [|p ps H _ IH]; [constructor|]. rewrite all_cons. apply Forall_app. now split. Qed.
Lemma silent_part p : part_ok p -> ~ group_in [tracks] p -> Forall (fun i => speaks i = false) (items_of p).
Proof.
  intros H Ng. destruct p as [i|id w its]; cbn [items_of].
  - constructor; [|constructor]. cbn [part_ok] in H. destruct i as [id w n|id w d|b]; try reflexivity. destruct H as (_ & _ & [P|[]] & _). cbn [speaks]. now apply plain_is.
  - cbn [part_ok] in H. destruct H as (I & _ & G & _). constructor; [reflexivity|]. rewrite Forall_forall in *. intros i Hi. specialize (G i Hi). destruct i as [id' w' n|id' w' d|b]; try reflexivity. cbn [speaks].
    destruct G as [(-> & G) | [(-> & G) | (-> & G)]].
    + exfalso. apply Ng. exists tracks, w, its. split; [reflexivity|now left].
    + destruct G as (_ & _ & P & _). rewrite <- is_in. now apply (kinds_plain [file_name; file_contents]).
    + destruct G as (_ & _ & P & _). rewrite <- is_in. now apply (kinds_plain []).
Qed.
Definition added_leaf (i : item) : Prop := exists id w d, i = Leaf id w d /\ In id [RESAMPLE_FILE; RESAMPLE_TRACK] /\ vint_ok w (lenN d).
Lemma added_syn i : added_leaf i -> syn i /\ load_kind i.
Proof.
  intros (id & w & d & -> & I & V). assert (S : In id special) by (revert I; now apply (incl_b [RESAMPLE_FILE; RESAMPLE_TRACK] special)). split.
  - cbn [syn]. split; [now apply special_id|]. split; [|exact V]. apply special_no_block. destruct I as [<-|[<-|[]]]; reflexivity.
  - right. revert I. now apply (incl_b [RESAMPLE_FILE; RESAMPLE_TRACK] load_leaves).
Qed.
Definition srs_items (a : list part) (w : nat) (size : N) (wr : nat) (added : list item) (b : list item) : list item :=
  all_items a ++ Open segment w size :: Open RESAMPLE wr (lenN (bytes_of added)) :: added ++ b.
Lemma added_enc added : Forall added_leaf added -> encs true added = bytes_of added.
Proof.
  intros F. rewrite <- encs_false. unfold encs. f_equal. apply map_ext_in. intros i Hi. rewrite Forall_forall in F. destruct (F i Hi) as (id & w & d & -> & I & _). cbn [enc]. destruct I as [<-|[<-|[]]]; reflexivity.
Qed.
Lemma load_is ap name big offset ps srs : mkv_ok ps -> mkv_srs ap name big offset (file_of ps) = Ok srs -> exists fd ts a w size b wr added,
  mkv_load_srs srs = Ok (Some fd, ts, map (fun t => td_number (m_td (snd t))) (filter (fun t => negb (enough (m_td (snd t)))) ts)) /\
  fd_crc32 fd = crc32 (file_of ps) /\ fd_flags fd = NEW_FLAGS /\ ts <> [] /\ loaded offset (all_items ps) ts /\
  ps = a ++ One (Open segment w size) :: b /\ srs = encs true (srs_items a w size wr added (all_items b)) /\ Forall added_leaf added /\ vint_ok wr (lenN (bytes_of added)) /\
  Forall (fun p => exists id w d, p = One (Leaf id w d)) a /\ (forall w size, ~ In (One (Open segment w size)) b).
Proof.
  intros H E. destruct (srs_form ap name big offset ps H srs E) as (ts & a & w & size & b & x & Ep & Ha & Hb & T & Nt & Rs & ->). destruct H as (F & _ & Bf & Nu & _ & Small & _).
  apply resample_is in Rs as (wr & w0 & d0 & ls & V & -> & Sf & V0 & Tl). set (added := Leaf RESAMPLE_FILE w0 d0 :: ls) in *.
  assert (Ad : Forall added_leaf added).
  { constructor; [exists RESAMPLE_FILE, w0, d0; split; [reflexivity|]; split; [now left|exact V0]|]. clear - Tl. induction Tl as [|t i l l' (w & d & -> & V & _) _ IH]; constructor; [|exact IH]. exists RESAMPLE_TRACK, w, d. split; [reflexivity|]. split; [right; now left|exact V]. }
  assert (Es : encs true (all_items a) ++ header segment w size ++ bytes_of (Open RESAMPLE wr (lenN (bytes_of added)) :: added) ++ encs true (all_items b) = encs true (srs_items a w size wr added (all_items b))).
  { unfold srs_items. rewrite encs_app, !encs_cons, encs_app, (added_enc added Ad), bytes_cons, <- !app_assoc. reflexivity. }
  rewrite Es. clear Es.
  assert (Fa : Forall part_ok a /\ Forall part_ok b) by (rewrite Ep in F; apply Forall_app in F as (Fa & Fb); inversion Fb; now split). destruct Fa as (Fa & Fb).
  assert (Vs : syn (Open segment w size)) by (rewrite Ep in F; apply Forall_app in F as (_ & F); apply Forall_inv in F; now apply part_syn in F).
  (* the part that is read *)
  assert (Sp : exists b1 r, encs true (all_items b) = encs true (all_items b1) ++ r /\ Forall part_ok b1 /\ Forall (fun p => ~ group_in [cluster; attachments] p) b1 /\ (forall w n, ~ In (One (Open segment w n)) b1) /\
     (lenN r < 2 \/ exists id wg n r', r = enc true (Open id wg n) ++ r' /\ In id [CLUSTER; ATTACHMENT_LIST] /\ vint_ok wg n) /\ forall n, header_of n (all_items ps) = removed n (Some 0) false [] (all_items b1)).
  { assert (Na : forall n cur three now its, removed n cur three now (all_items a ++ its) = removed n cur three now its).
    { intros n cur three now its. clear - Ha Fa. induction a as [|p a IH]; [reflexivity|]. inversion Ha as [|? ? (id & w' & d & ->) Ha']; subst. inversion Fa as [|? ? P Fa']; subst. rewrite all_cons. cbn [items_of app removed]. cbn [part_ok item_ok] in P. destruct P as (_ & _ & [P|[]] & _).
      rewrite !(plain_is _ id P) by reflexivity. apply IH; assumption. }
    destruct (first_group [cluster; attachments] b) as [(b1 & p & b2 & Eb & Gp & F1)|F1].
    - exists b1, (encs true (items_of p) ++ encs true (all_items b2)). rewrite Eb in Fb. apply Forall_app in Fb as (Fb1 & Fp). inversion Fp as [|? ? Hp Fb2]; subst x l. split; [rewrite Eb, all_app, all_cons, !encs_app; reflexivity|]. split; [exact Fb1|]. split; [exact F1|]. split; [intros w' n X; apply (Hb w' n); rewrite Eb; apply in_or_app; now left|]. split.
      + right. destruct Gp as (id & wg & its & -> & I). exists id, wg, (lenN (bytes_of its)), (encs true its ++ encs true (all_items b2)). split; [cbn [items_of]; now rewrite encs_cons, <- app_assoc|]. split; [exact I|]. apply Hp.
      + intros n. unfold header_of. rewrite Ep, all_app, Na, all_cons, Eb, all_app. cbn [items_of app removed]. rewrite <- (removed_first n 0).
        * destruct (removed_app n (all_items (p :: b2)) (all_items b1) (Some 0) false []) as (c & t & ->). apply removed_silent. apply parts_forall. rewrite Forall_forall. intros q Hq. rewrite Forall_forall in F. apply silent_part; [apply F; rewrite Ep, Eb; apply in_or_app; right; right; apply in_or_app; now right|].
          destruct Hq as [<-|Hq]; [destruct Gp as (id & wg & its & -> & I); intros (id' & w' & its' & X & [Y|[]]); injection X as X _ _; rewrite <- Y in X; rewrite X in I; destruct I as [I|[I|[]]]; discriminate I|].
          apply in_split in Hq as (u & v & ->). apply (Bf (a ++ One (Open segment w size) :: b1) p u q v); [|destruct Gp as (id & wg & its & -> & I); exists id, wg, its; split; [reflexivity|exact I]]. rewrite Ep, Eb. now rewrite <- app_assoc.
        * intros y i z Ey A. rewrite <- all_app, <- Eb in Ey. destruct (Nu (all_items a ++ Open segment w size :: y) i z) as (q & Hq); [rewrite Ep, all_app, all_cons, Ey, <- app_assoc; reflexivity|exact A|]. exists q. rewrite listed_app in Hq. destruct Hq as [Hq|Hq].
          -- exfalso. destruct Hq as (w' & d & Hi & _). clear - Hi Ha Fa. induction a as [|p a IH]; [destruct Hi|]. inversion Ha as [|? ? (id & w1 & d1 & ->) Ha']; subst. inversion Fa as [|? ? P Fa']; subst. rewrite all_cons in Hi. cbn [items_of app] in Hi. destruct Hi as [X|Hi]; [|now apply IH]. injection X as -> -> ->. cbn [part_ok item_ok] in P. destruct P as (_ & _ & [P|[]] & _). apply P. do 7 right. now left.
          -- change (Open segment w size :: y) with ([Open segment w size] ++ y) in Hq. rewrite listed_app in Hq. destruct Hq as [Hq|Hq]; [now apply listed_open in Hq|exact Hq].
    - exists b, []. rewrite app_nil_r. split; [reflexivity|]. split; [exact Fb|]. split; [exact F1|]. split; [exact Hb|]. split; [left; reflexivity|]. intros n. unfold header_of. rewrite Ep, all_app, Na, all_cons. cbn [items_of app removed]. symmetry. apply removed_first.
      intros y i z Ey A. destruct (Nu (all_items a ++ Open segment w size :: y) i z) as (q & Hq); [rewrite Ep, all_app, all_cons, Ey, <- app_assoc; reflexivity|exact A|]. exists q. rewrite listed_app in Hq. destruct Hq as [Hq|Hq].
      + exfalso. destruct Hq as (w' & d & Hi & _). clear - Hi Ha Fa. induction a as [|p a IH]; [destruct Hi|]. inversion Ha as [|? ? (id & w1 & d1 & ->) Ha']; subst. inversion Fa as [|? ? P Fa']; subst. rewrite all_cons in Hi. cbn [items_of app] in Hi. destruct Hi as [X|Hi]; [|now apply IH]. injection X as -> -> ->. cbn [part_ok item_ok] in P. destruct P as (_ & _ & [P|[]] & _). apply P. do 7 right. now left.
      + change (Open segment w size :: y) with ([Open segment w size] ++ y) in Hq. rewrite listed_app in Hq. destruct Hq as [Hq|Hq]; [now apply listed_open in Hq|exact Hq]. }
  destruct Sp as (b1 & r & Er & Fb1 & Ng & Nb & Hr & Hd).
  set (its := srs_items a w size wr added (all_items b1)).
  assert (Ef : encs true (srs_items a w size wr added (all_items b)) = encs true its ++ r).
  { unfold its, srs_items. rewrite !encs_app, !encs_cons, !encs_app, Er, <- !app_assoc. reflexivity. }
  assert (Tb : Forall tail_kind (all_items b1)).
  { apply parts_forall. rewrite Forall_forall in *. intros p Hp. apply tail_part; [now apply Fb1| |now apply Ng]. intros w' n ->. exact (Nb w' n Hp). }
  assert (Ta : Forall tail_kind (all_items a)).
  { apply parts_forall. rewrite Forall_forall in *. intros p Hp. apply tail_part; [now apply Fa| |]; destruct (Ha p Hp) as (id & w' & d & ->); [discriminate|]. intros (id' & w1 & its1 & X & _). discriminate X. }
  assert (Sy : Forall syn its).
  { unfold its, srs_items. destruct (parts_syn a Fa) as (Pa & _). destruct (parts_syn b1 Fb1) as (Pb & _). pose proof (looks_syn (fun _ _ => true) a Pa 0) as Sa. pose proof (looks_syn (fun _ _ => true) b1 Pb 0) as Sb. rewrite looks_all in Sa, Sb by reflexivity.
    apply Forall_app. split; [exact Sa|]. constructor; [exact Vs|]. constructor; [split; [apply special_id; now apply (incl_b [RESAMPLE] special eq_refl); left|]; split; [now apply special_no_block|exact V]|]. apply Forall_app. split; [|exact Sb]. rewrite Forall_forall in *. intros i Hi. now apply added_syn, Ad. }
  assert (K : Forall load_kind its).
  { unfold its, srs_items. apply Forall_app. split; [eapply Forall_impl; [|exact Ta]; intros i X; apply X|]. constructor; [now left|]. constructor; [do 6 right; now left|]. apply Forall_app. split; [rewrite Forall_forall in *; intros i Hi; now apply added_syn, Ad|eapply Forall_impl; [|exact Tb]; intros i X; apply X]. }
  destruct T as (Nd & T).
  set (tds := map (stored_track big offset) ts) in *.
  assert (Kn : forall t, In t ts -> td_number (m_td (snd t)) = fst t /\ td_flags (m_td (snd t)) = 0 /\ fst t < 2 ^ 16).
  { intros (k, t) Ht. cbn [fst snd]. specialize (T k). rewrite (in_get N.eqb N.eqb_eq k t ts Nd Ht) in T. destruct T as (T1 & T2 & T3 & _). split; [exact T3|]. split; [exact T2|now apply Small]. }
  destruct (flags_back _ _ _ Sf) as (fd & Pf & Pc & Pfl). cbn [fd_of fd_crc32] in Pc. rewrite N.mod_small in Pc by apply RecovFacts.crc32_lt.
  set (rows := map row tds).
  assert (Er2 : rows = map (fun t => (fst t, mtrack_of (with_stored big (offset (fst t)) (m_td (snd t))))) ts).
  { unfold rows, tds. rewrite map_map. apply map_ext_in. intros t Ht. destruct (Kn t Ht) as (K1 & _). unfold row, stored_track. cbn [with_stored td_number]. now rewrite K1. }
  assert (Rk : map fst rows = map fst ts) by (rewrite Er2, map_map; reflexivity).
  destruct (load_tail (all_items a) Ta 0 (mkL None [] 0 false)) as (s1 & R1 & D1 & K1 & G1). cbn [l_data l_tracks l_cur l_three map] in *.
  (* before the segment there are plain elements only *)
  assert (S1 : s1 = mkL None [] 0 false).
  { clear - R1 Ha Fa. revert R1. generalize 0 at 1. induction a as [|p a IH]; intros pos R1; [apply ok_inj in R1; now subst|]. inversion Ha as [|? ? (id & w1 & d1 & ->) Ha']; subst. inversion Fa as [|? ? P Fa']; subst. rewrite all_cons in R1. cbn [items_of app irun load'] in R1. cbn [part_ok item_ok] in P. destruct P as (_ & _ & [P|[]] & _).
    rewrite !(plain_is _ id P) in R1 by reflexivity. cbn [bind fst snd] in R1. match type of R1 with context [never ?x] => change (never x) with false in R1 end. cbv iota in R1. exact (IH Ha' Fa' _ R1). }
  subst s1. clear D1 K1 G1.
  set (s2 := mkL (Some fd) rows 0 false). destruct (load_tail (all_items b1) Tb (lenN (encs true (all_items a)) + lenN (enc true (Open segment w size)) + lenN (enc true (Open RESAMPLE wr (lenN (bytes_of added)))) + lenN (encs true added)) s2) as (s3 & R3 & D3 & K3 & G3).
  assert (R : irun true never load' its 0 (mkL None [] 0 false) = Ok s3).
  { unfold its, srs_items. rewrite (irun_app true load' _ _ _ _ _ (fun s pos i x _ => load_goes s pos i x) R1). rewrite N.add_0_l. cbn [irun load' bind fst snd]. change (@never lstate) with (fun _ : lstate => false). cbv iota beta. cbn [fst snd].
    change (fun _ : lstate => false) with (@never lstate). rewrite (irun_app true load' (all_items b1) added _ _ s2 (fun s pos i x _ => load_goes s pos i x)); [exact R3|].
    unfold added. cbn [irun]. match goal with |- context [never ?x] => change (never x) with false end. cbv iota. cbn [load']. change (beqb RESAMPLE_FILE TRACKNUMBER) with false. change (beqb RESAMPLE_FILE TRACKCODEC) with false. change (beqb RESAMPLE_FILE COMPRESSIONALGORITHM) with false. change (beqb RESAMPLE_FILE COMPRESSIONSETTINGS) with false. change (beqb RESAMPLE_FILE RESAMPLE_FILE) with true. cbv iota.
    rewrite Pf. cbn [bind fst snd l_tracks l_cur l_three]. rewrite (load_tracks tds ls Tl); cbn [l_data l_tracks l_cur l_three app map]; [reflexivity| |].
    - rewrite Forall_forall. intros t Ht. unfold tds in Ht. apply in_map_iff in Ht as (u & <- & Hu). destruct (Kn u Hu) as (U1 & U2 & U3). unfold stored_track. cbn [with_stored td_flags td_number]. rewrite U1, U2. split; [|lia]. destruct big; discriminate.
    - assert (X : map td_number tds = map fst ts) by (unfold tds; rewrite map_map; apply map_ext_in; intros t Ht; apply (Kn t Ht)). rewrite X. exact Nd. }
  exists fd, (l_tracks s3), a, w, size, b, wr, added. split; [|split; [exact Pc|split; [exact Pfl|split; [|split; [|repeat (split; [assumption || reflexivity|]); assumption]]]]].
  - unfold mkv_load_srs. rewrite (run_until true (load_step (encs true (srs_items a w size wr added (all_items b)))) load' _ its r (mkL None [] 0 false) Ef Sy).
    + rewrite R. cbn [bind]. rewrite D3. reflexivity.
    + now apply load_acts.
    + destruct Hr as [Hr|(id & wg & n & r' & -> & I & Vg)]; [now left|right]. exists (Open id wg n), r'. split; [reflexivity|]. split; [|intros s; now apply load_stops]. cbn [syn]. destruct (opens_syn id) as (O1 & O2); [revert I; now apply (incl_b [CLUSTER; ATTACHMENT_LIST] opens)|]. now split.
  - intros X. rewrite X in K3. cbn [l_tracks s2] in K3. rewrite Rk in K3. destruct ts; [now apply Nt|discriminate K3].
  - split; [rewrite K3; cbn [l_tracks s2]; now rewrite Rk|]. intros n. rewrite G3. cbn [l_tracks l_cur l_three s2]. rewrite Er2. rewrite (get_map (fun k t => mtrack_of (with_stored big (offset k) (m_td t)))). specialize (T n). destruct (get N.eqb n ts) as [t|e]; cbn [bind]; [|exact T].
    destruct T as (T1 & T2 & T3 & T4 & T5 & T6). split; [exact T1|]. eexists. split; [unfold set_strip, mtrack_of; cbn [m_td m_offset m_match m_check m_file m_strip]; rewrite <- Hd; reflexivity|]. split; [exact T3|]. split; [reflexivity|]. split; [exact T5|exact T6].
Qed.
